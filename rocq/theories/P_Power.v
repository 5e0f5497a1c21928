(** P_Power.v — property C126: what one provider's admin can do to everybody's
    delegation. *)
From Verif Require Import L_Power L_FindW.

(** C126 Who can hold up delegatePending. When a batch works, the admin of one
    provider can make it fail by changing the provider's parameters if and only if
    the batch gets as far as that provider and: the provider holds more than one
    unit of stake (a cap of 1 makes the room negative); or its books show more
    being unstaked than staked; or the others cannot take the batch without it
    (it withdraws); or the scoring configuration has an empty range (it reports
    exactly that value). This is the exact form of C47. *)
Theorem C126_exactly_when : forall w v o c p sc,
  Reachable w -> N.of_nat (length (w_dl w)) < 2 ^ 32 -> w_pv w !! c = Some p -> c_score (w_cfg w) = Some sc ->
  snd (step w (OTx v 0 [] (DelegatePending o))) = SOk ->
  (exists total cap nodes apy elig,
     let x := OTx (p_admin p) 0 [] (ChangeParams c total cap nodes apy elig) in
     snd (step w x) = SOk /\ snd (step (fst (step w x)) (OTx v 0 [] (DelegatePending o))) <> SOk)
  <-> p_admin p <> SELF /\ in_reach w (default (pending_egld w) o) c
      /\ (1 < net_stake p \/ p_staked p + p_pst p < p_pun p
          \/ ~ others_suffice w (default (pending_egld w) o) c \/ ~ distinct_bounds sc).
Proof. exact power. Qed.
Print Assumptions C126_exactly_when.

(** The first in the list can always do it, with two units of stake, and it lasts
    whatever anybody does, as long as the books and the parameters of that
    provider are left alone. *)
Theorem C126_first_blocks_all : forall w c r p os u eg pays o,
  Reachable w -> w_dl w = c :: r -> w_pv w !! c = Some p -> p_admin p <> SELF -> 1 < net_stake p ->
  let x := OTx (p_admin p) 0 [] (ChangeParams c 0 1 0 0 true) in
  snd (step w x) = SOk
  /\ (along (leaves_alone c) (fst (step w x)) os ->
      snd (step (run (fst (step w x)) os) (OTx u eg pays (DelegatePending o))) <> SOk).
Proof. exact head_blocks. Qed.
Print Assumptions C126_first_blocks_all.

(** Nobody else can: a transaction of an account that is neither owner nor
    manager nor the admin of a provider makes no difference to a batch that fits
    the queue before and after. *)
Theorem C126_outsiders : forall w u eg pays ep v y,
  Reachable w -> N.of_nat (length (w_dl w)) < 2 ^ 32 ->
  ~ manages u w -> (forall d q, w_pv w !! d = Some q -> p_admin q <> u) ->
  let w' := fst (step w (OTx u eg pays ep)) in
  fits_queue (Some y) (pending_egld w) -> fits_queue (Some y) (pending_egld w') ->
  (snd (step w' (OTx v 0 [] (DelegatePending (Some y)))) = SOk <-> snd (step w (OTx v 0 [] (DelegatePending (Some y)))) = SOk).
Proof. exact outsiders. Qed.
Print Assumptions C126_outsiders.

(** Unstaking cannot be held up this way: whoever changes whatever parameters, a
    batch of unstaking works exactly if it worked before (the ranges of the
    scoring configuration not being empty). *)
Theorem C126_unstaking_unharmed : forall w x v o c total cap nodes apy elig sc,
  Reachable w -> N.of_nat (length (w_ul w)) < 2 ^ 32 -> c_score (w_cfg w) = Some sc -> distinct_bounds sc ->
  let w' := fst (step w (OTx x 0 [] (ChangeParams c total cap nodes apy elig))) in
  snd (step w' (OTx v 0 [] (UnDelegatePending o))) = SOk <-> snd (step w (OTx v 0 [] (UnDelegatePending o))) = SOk.
Proof. exact change_no_undel. Qed.
Print Assumptions C126_unstaking_unharmed.

(** Case: both providers can be given more; 1001 is first and holds 1 EGLD, so its
    admin 78 can block, and after a further deposit of 300 EGLD it is still so. A
    batch of 1 EGLD does not get as far as 1000, whose admin cannot. *)
Definition pow_ops : list op := [OTx 500 (300 * E) [] Delegate; OEpoch 3; OTx 100 0 [] (DelegatePending None); OTx 501 (7 * E) [] AddRewards].
Example C126_case :
  let p := Prov 78 (3 * E) (500 * E) 20 900 E 0 true 0 0 in
  let x := OTx 78 0 [] (ChangeParams 1001 0 1 0 0 true) in
  Reachable w_turn /\ w_dl w_turn = [1001; 1000] /\ w_pv w_turn !! 1001 = Some p /\ 1 < net_stake p
  /\ c_score (w_cfg w_turn) = Some scfg_default
  /\ snd (step w_turn (OTx 100 0 [] (DelegatePending None))) = SOk
  /\ along (leaves_alone 1001) (fst (step w_turn x)) pow_ops
  /\ statuses (fst (step w_turn x)) pow_ops = [SOk; SOk; SErr EUnderflow; SOk]
  /\ in_reach w_turn E 1001 /\ ~ in_reach w_turn E 1000 /\ in_reach w_turn (2 * E) 1000
  /\ ~ manages 500 w_turn /\ fits_queue (Some E) (pending_egld w_turn).
Proof.
  cbv zeta. split; [apply reach_run, w_deposit_reach|]. do 5 (split; [vm_compute; reflexivity|]).
  split; [vm_compute; repeat split; discriminate|]. split; [vm_compute; reflexivity|].
  split; [exists [], [1000]; split; vm_compute; reflexivity|].
  split; [|split; [exists [1001], []; split; vm_compute; reflexivity|]].
  - intros ([|d [|e l1]] & l2 & Hl & Hk); change (w_dl w_turn) with [1001; 1000] in Hl.
    + discriminate Hl.
    + injection Hl as <-. vm_compute in Hk. discriminate Hk.
    + injection Hl as _ _ Hl. destruct l1; discriminate Hl.
  - split; [intros [H|H]; vm_compute in H; [discriminate H|inversion H]|].
    split; [vm_compute; discriminate|]. split; [split; vm_compute; discriminate|right; vm_compute; discriminate].
Qed.
(** Case of the last: on [w_redeemed] unstaking works, and still does after the
    admin of the first provider set a cap of 1. *)
Example C126_unstaking_case :
  let x := OTx 77 0 [] (ChangeParams 1000 0 1 0 0 true) in
  Reachable w_redeemed /\ c_score (w_cfg w_redeemed) = Some scfg_default /\ distinct_bounds scfg_default
  /\ snd (step w_redeemed x) = SOk
  /\ snd (step w_redeemed (OTx 100 0 [] (UnDelegatePending None))) = SOk
  /\ snd (step (fst (step w_redeemed x)) (OTx 100 0 [] (UnDelegatePending None))) = SOk.
Proof.
  cbv zeta. split; [exact w_redeemed_reach|]. split; [vm_compute; reflexivity|]. split; [split; vm_compute; discriminate|].
  vm_compute. repeat split.
Qed.
