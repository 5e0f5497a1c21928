(** P_Score.v — properties C34 to C36: scoring, proportional distribution and
    the selection of providers. *)
From Verif Require Import Scenario L_Net.

(** C34 scoring prefers better providers: fewer nodes, more APY and less stake
    never score lower when delegating, and never higher when un-delegating. *)
Theorem C34_better_scores_higher : forall i j total c si sj,
  i_nodes i <= i_nodes j -> i_apy j <= i_apy i -> i_avail i <= i_avail j ->
  (score_of i true total c = Ok si -> score_of j true total c = Ok sj -> sj <= si)
  /\ (score_of i false total c = Ok si -> score_of j false total c = Ok sj -> si <= sj).
Proof. exact better_scores. Qed.
Print Assumptions C34_better_scores_higher.

(** Every provider has a score if the ranges of the configuration are proper. *)
Theorem C34_score_exists : forall i b total c,
  distinct_bounds c -> exists s, score_of i b total c = Ok s.
Proof. exact score_total. Qed.
Print Assumptions C34_score_exists.

(** Range of the category scores; with no stake at all the stake category has a
    fixed value. *)
Theorem C34_category_bounds : forall c b v total s,
  (node_score v b c = Ok s -> s * 10000 <= k_max_score c * 10000 ^ (k_exp c mod 2 ^ 32))
  /\ (apy_score v b c = Ok s -> s * 10000 <= k_max_score c * 10000 ^ (k_apy_mul c mod 2 ^ 32))
  /\ (stake_score v total b c = Ok s -> 0 < total -> s * 10000 <= k_max_score c * 10000 ^ (k_exp c mod 2 ^ 32))
  /\ (stake_score v 0 b c = Ok s -> s = k_max_score c ^ (k_exp c mod 2 ^ 32) * k_max_score c / 10000).
Proof. exact category_bounds. Qed.
Print Assumptions C34_category_bounds.

(** Case: a small provider with a good APY against a large one, in both
    directions, and the largest possible APY score. *)
Example C34_case :
  let i := Sinfo 1000 0 0 900 10 (5 * E) None in
  let j := Sinfo 1001 0 0 700 60 (20 * E) None in
  distinct_bounds scfg_default
  /\ score_of i true (25 * E) scfg_default = Ok 20482799337340570
  /\ score_of j true (25 * E) scfg_default = Ok 1280097988240920
  /\ score_of i false (25 * E) scfg_default = Ok 80032751089420
  /\ score_of j false (25 * E) scfg_default = Ok 6482259602189070
  /\ apy_score 1000 true scfg_default = Ok (1000 * 10000 ^ 3).
Proof. vm_compute. repeat split; discriminate. Qed.

(** C35 proportional distribution: the shares never add up to more than the
    amount. *)
Theorem C35_shares_fit : forall scores amount,
  sumN scores <> 0 -> sumN (map (fun s => s * amount / sumN scores) scores) <= amount.
Proof. exact shares_add_up. Qed.
Print Assumptions C35_shares_fit.

(** So only caps limit a delegation: exactly the providers whose share, limited
    by their space, is at least 1 EGLD are served, each with at least that. *)
Theorem C35_delegation_split : forall l amount total c ds rem l' T,
  score_all l true total c = Ok (l', T) -> 0 < T ->
  distribute_amount l amount true total c = Ok (ds, rem) ->
  let limited i := match i_space i with
                   | Some s => N.min (i_score i * amount / T) s
                   | None => i_score i * amount / T
                   end in
  sumN (map (fun i => i_score i * amount / T) l') <= amount
  /\ map d_addr ds = map i_addr (List.filter (fun i => ONE_EGLD <=? limited i) l')
  /\ (forall i, In i l' -> ONE_EGLD <= limited i ->
      exists d, In d ds /\ d_addr d = i_addr i /\ limited i <= d_amt d).
Proof. exact batch_split. Qed.
Print Assumptions C35_delegation_split.

(** And the top scored provider is served if it has space for 1 EGLD and the
    amount is at least 1 EGLD per selected provider. *)
Theorem C35_top_provider_served : forall l amount total c ds rem l' T i,
  score_all l true total c = Ok (l', T) -> 0 < T ->
  distribute_amount l amount true total c = Ok (ds, rem) ->
  N.of_nat (length l) * ONE_EGLD <= amount ->
  In i l' -> (forall j, In j l' -> i_score j <= i_score i) ->
  (forall s, i_space i = Some s -> ONE_EGLD <= s) ->
  exists d, In d ds /\ d_addr d = i_addr i /\ ONE_EGLD <= d_amt d.
Proof. exact top_served. Qed.
Print Assumptions C35_top_provider_served.

(** Case: three providers; the share of the second is cut by its space, that of
    the third is below 1 EGLD; the first takes what is left over. *)
Example C35_case :
  let l := [Sinfo 1000 0 0 900 10 (5 * E) None; Sinfo 1001 0 0 1000 20 (5 * E) (Some (3 * E));
            Sinfo 1002 0 0 500 100 (20 * E) None] in
  exists l' T,
    score_all l true (30 * E) scfg_default = Ok (l', T) /\ 0 < T
    /\ (exists i, In i l' /\ i_addr i = 1001 /\ forall j, In j l' -> i_score j <= i_score i)
    /\ distribute_amount l (10 * E) true (30 * E) scfg_default
       = Ok ([Dsel 1000 (7 * E) None; Dsel 1001 (3 * E) (Some 0)], 0).
Proof.
  eexists _, _. split; [vm_compute; reflexivity|]. split; [done|]. split; [|vm_compute; reflexivity].
  eexists. split; [right; left; reflexivity|]. split; [reflexivity|]. intros j [<-|[<-|[<-|[]]]]; vm_compute; discriminate.
Qed.

(** C36 un-delegation does not abort: with every listed net stake zero or at
    least 1 EGLD and some stake, proper limits and ranges, every request that
    fits the queue succeeds and keeps the net stakes that way. *)
Theorem C36_undelegation_works : forall w u o sc,
  Reachable w -> operator u w -> fits_queue o (unstake_queue w) ->
  c_score (w_cfg w) = Some sc -> distinct_bounds sc -> N.of_nat (length (w_ul w)) < 2 ^ 32 ->
  c_maxsel (w_cfg w) < 2 ^ 64 -> c_maxsel (w_cfg w) mod 2 ^ 32 <> 0 ->
  (forall c p, c ∈ w_ul w -> w_pv w !! c = Some p -> net_zero_or_one p) ->
  (exists c p, c ∈ w_ul w /\ w_pv w !! c = Some p /\ 0 < net_stake p) ->
  snd (step w (OTx u 0 [] (UnDelegatePending o))) = SOk
  /\ forall c p, c ∈ w_ul w -> w_pv (fst (step w (OTx u 0 [] (UnDelegatePending o)))) !! c = Some p -> net_zero_or_one p.
Proof. exact undel_batch_works. Qed.
Print Assumptions C36_undelegation_works.

(** The condition on the net stakes holds after every history in which no
    provider rejected a delegation. *)
Theorem C36_net_stakes : forall w os,
  Deployed w -> along (fun v o => ~ rejects_delegation v o) w os ->
  forall c p, w_pv (run w os) !! c = Some p -> net_zero_or_one p.
Proof. exact net_history. Qed.
Print Assumptions C36_net_stakes.

(** Case: the queue of almost 39 EGLD and two providers, with two requests. *)
Example C36_case :
  Reachable w_redeemed /\ operator 100 w_redeemed
  /\ fits_queue None (unstake_queue w_redeemed) /\ fits_queue (Some (20 * E)) (unstake_queue w_redeemed)
  /\ c_score (w_cfg w_redeemed) = Some scfg_default /\ distinct_bounds scfg_default
  /\ c_maxsel (w_cfg w_redeemed) = 20 /\ w_ul w_redeemed = [1000; 1001]
  /\ (exists p, w_pv w_redeemed !! 1000 = Some p /\ net_stake p = 25038217711350872307)
  /\ (exists p, w_pv w_redeemed !! 1001 = Some p /\ net_stake p = 76961782288649127693).
Proof.
  split; [exact w_redeemed_reach|]. split; [split; [done|]; split; [by left|]; split; vm_compute; reflexivity|].
  repeat split; try (vm_compute; discriminate); try (right; vm_compute; discriminate); try (vm_compute; reflexivity);
    eexists; (split; [vm_compute; reflexivity|reflexivity]).
Qed.
