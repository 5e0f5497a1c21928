(** P_Front.v — properties C129 and C130: getting in just before the rewards, and getting
    in before others. *)
From Verif Require Import L_Front.

(** C129 (false) EGLD that was never staked earns nothing: whoever deposits and redeems
    in the same epoch, before anything is sent to a provider, gets at most the deposit
    back. False: while the reply to claimRewards is under way its rewards are not yet in
    the price, and a newcomer who deposits before it is booked takes part in it. The
    EGLD is paid out at once, since the deposit itself is still in the contract. *)
Theorem C129_snipe_refuted :
  exists w u a m, let w1 := fst (step w (OTx u a [] Delegate)) in
    let w2 := fst (step w1 (OCb 0)) in let w3 := fst (step w2 (OTx u 0 [Pay TokLs m] UnDelegate)) in
    ReachableClean w /\ ls_balance u w = 0 /\ (exists c r, w_res w = [(KClaim c, RDone r)])
    /\ statuses w [OTx u a [] Delegate; OCb 0; OTx u 0 [Pay TokLs m] UnDelegate] = [SOk; SOk; SOk]
    /\ ls_balance u w1 = m /\ ls_balance u w3 = 0 /\ w_pv w3 = w_pv w /\ w_calls w3 = [] /\ w_epoch w3 = w_epoch w
    /\ a + ONE_EGLD <= egld_sent u w3.
Proof. exact sniped. Qed.
Print Assumptions C129_snipe_refuted.

(** What is true: a deposit redeemed after any history brings the deposit and its part,
    share by share, of the gains that were booked in between, not more than rounding
    allows; and not less by more than one unit of a share and one of EGLD. Missing: that
    the gains had been earned by that EGLD. *)
Theorem C129_share_partial : forall w os u a pays eg m,
  let w1 := fst (step w (OTx u a pays Delegate)) in
  let v := run w1 os in
  let e := paid_out u v (fst (step v (OTx u eg [Pay TokLs m] UnDelegate))) in
  Reachable w -> 0 < ls_supply w -> snd (step w (OTx u a pays Delegate)) = SOk ->
  ls_balance u w1 = ls_balance u w + m ->
  always (fun x => 0 < ls_supply x) w1 os ->
  snd (step v (OTx u eg [Pay TokLs m] UnDelegate)) = SOk ->
  (q a + q m * per_share w1 os < q e + 1 + price w)%Q
  /\ (q e <= q a + q m * (per_share w1 os + dust w1 os))%Q.
Proof. exact sniper. Qed.
Print Assumptions C129_share_partial.

(** Case: the newcomer of the witness stays on for another reward of 5 EGLD and a
    redemption of 500, and gets 1006.22 EGLD for 1000. *)
Definition snipe_wait : list op := [OCb 0; OTx 9 (5 * E) [] AddRewards; OTx 500 0 [Pay TokLs (7 * E)] UnDelegate].
Example C129_case :
  let w := run w_staked snipe_ops in let w1 := fst (step w (OTx 600 (1000 * E) [] Delegate)) in
  let v := run w1 snipe_wait in let o := OTx 600 0 [Pay TokLs (1000 * E)] UnDelegate in
  Reachable w /\ 0 < ls_supply w /\ snd (step w (OTx 600 (1000 * E) [] Delegate)) = SOk
  /\ ls_balance 600 w1 = 1000 * E /\ always (fun x => 0 < ls_supply x) w1 snipe_wait /\ snd (step v o) = SOk
  /\ bookings w1 snipe_wait = [VGain 1920000000000000000; VGain (5 * E); VOut 500 (7 * E)]
  /\ (per_share w1 snipe_wait == 692 # 111200)%Q
  /\ paid_out 600 v (fst (step v o)) = 1006223021582733812950.
Proof.
  cbv zeta. split; [apply reach_run, w_staked_reach|]. split; [vm_compute; reflexivity|]. split; [vm_compute; reflexivity|].
  split; [vm_compute; reflexivity|]. split; [apply always_pos; vm_compute; reflexivity|].
  split; [vm_compute; reflexivity|]. split; [vm_compute; reflexivity|]. split; vm_compute; reflexivity.
Qed.

(** C130 It hardly matters who comes first. Let others trade [t] times before a deposit,
    with never fewer than [S] units of shares and without gains: the depositor gets no
    more than before, and at most one part in [S/t] and one unit less, *)
Theorem C130_deposit : forall w os u a pays m0 m S,
  let v := run w os in let o := OTx u a pays Delegate in let t := trades w os in
  Reachable w -> t < S -> always (fun x => S <= ls_supply x) w os ->
  (forall g, In (VGain g) (bookings w os) -> g = 0) ->
  snd (step w o) = SOk -> snd (step v o) = SOk ->
  ls_balance u (fst (step w o)) = ls_balance u w + m0 -> ls_balance u (fst (step v o)) = ls_balance u v + m ->
  m <= m0 /\ m0 * (S - t) < (m + 1) * S.
Proof. exact deposit_after. Qed.
Print Assumptions C130_deposit.

(** and who redeems after them gets no less than before, and at most one part in [S/t]
    and one unit more. *)
Theorem C130_redeem : forall w os u x eg S,
  let v := run w os in let o := OTx u eg [Pay TokLs x] UnDelegate in let t := trades w os in
  Reachable w -> t < S -> always (fun z => S <= ls_supply z) w os ->
  (forall g, In (VGain g) (bookings w os) -> g = 0) ->
  snd (step w o) = SOk -> snd (step v o) = SOk ->
  let e0 := paid_out u w (fst (step w o)) in let e := paid_out u v (fst (step v o)) in
  e0 <= e /\ e * (S - t) < (e0 + 1) * S.
Proof. exact redeem_after. Qed.
Print Assumptions C130_redeem.

(** Case: after the rewards of the scenario 500 redeems 40 LS tokens, 501 deposits an odd
    amount and redeems 3 LS tokens of it. Account 502 gets as many LS tokens for 5 EGLD
    as before, and 100 as much for 2 LS tokens. *)
Definition ahead_ops : list op :=
  [OTx 500 0 [Pay TokLs (40 * E)] UnDelegate; OTx 501 (7 * E + 12345) [] Delegate; OTx 501 0 [Pay TokLs (3 * E)] UnDelegate; OMoveLs 501 500 17].
Fixpoint at_least (S : N) (w : world) (os : list op) : bool :=
  (S <=? ls_supply w) && match os with [] => true | o :: r => at_least S (fst (step w o)) r end.
Lemma at_least_ok S w os : at_least S w os = true -> always (fun v => S <= ls_supply v) w os.
Proof.
  revert w. induction os as [|o os IH]; intros w H; apply andb_prop in H as [H H']; (split; [by apply N.leb_le|]); [done|by apply IH].
Qed.
Example C130_case :
  let w := w_rewarded in let v := run w ahead_ops in
  Reachable w /\ trades w ahead_ops = 3 /\ always (fun x => 60 * E <= ls_supply x) w ahead_ops
  /\ bookings w ahead_ops = [VOut 500 (40 * E); VIn 501 (7 * E + 12345); VOut 501 (3 * E); VMove 501 500 17]
  /\ (forall g, In (VGain g) (bookings w ahead_ops) -> g = 0)
  /\ snd (step w (OTx 502 (5 * E) [] Delegate)) = SOk /\ snd (step v (OTx 502 (5 * E) [] Delegate)) = SOk
  /\ ls_balance 502 (fst (step w (OTx 502 (5 * E) [] Delegate))) = 4907621247113163972
  /\ ls_balance 502 (fst (step v (OTx 502 (5 * E) [] Delegate))) = 4907621247113163972
  /\ paid_out 100 w (fst (step w (OTx 100 0 [Pay TokLs (2 * E)] UnDelegate))) = 2037647058823529411
  /\ paid_out 100 v (fst (step v (OTx 100 0 [Pay TokLs (2 * E)] UnDelegate))) = 2037647058823529411
  /\ snd (step w (OTx 100 0 [Pay TokLs (2 * E)] UnDelegate)) = SOk /\ snd (step v (OTx 100 0 [Pay TokLs (2 * E)] UnDelegate)) = SOk.
Proof.
  cbv zeta. split; [exact w_rewarded_reach|]. split; [vm_compute; reflexivity|]. split; [apply at_least_ok; vm_compute; reflexivity|].
  assert (Hb : bookings w_rewarded ahead_ops = [VOut 500 (40 * E); VIn 501 (7 * E + 12345); VOut 501 (3 * E); VMove 501 500 17]) by (vm_compute; reflexivity).
  split; [exact Hb|]. split. { rewrite Hb. intros g [K|[K|[K|[K|[]]]]]; discriminate. }
  vm_compute. repeat split.
Qed.
