(** P_User.v — properties C16, C17, C19 to C23: delegate, unDelegate, withdraw
    and the unstake tokens. *)
From Verif Require Import Scenario L_Worth L_Wd.

(** C16 delegate: exact effect and availability. *)
Theorem C16_delegate : forall w u a,
  c_active (w_cfg w) = true -> c_lstok (w_cfg w) = TIssued -> u <> SELF -> ONE_EGLD <= a -> 0 < ls_worth w a ->
  let m := ls_worth w a in
  let o := OTx u a [] Delegate in let w' := fst (step w o) in
  snd (step w o) = SOk
  /\ (forall v, ls_balance v w' = ls_balance v w + (if v =? u then m else 0))
  /\ ls_supply w' = ls_supply w + m /\ virtual_reserve w' = virtual_reserve w + a
  /\ contract_egld w' = contract_egld w + a
  /\ (exists i r, i + r = a /\ pending_egld w' = pending_egld w + r
      /\ total_withdrawn w' = total_withdrawn w + i /\ unstake_queue w' + i = unstake_queue w)
  /\ fees_reserve w' = fees_reserve w /\ unbonding w' = unbonding w
  /\ rest_unchanged w w' /\ ust_unchanged w w' /\ (forall v, egld_sent v w' = 0).
Proof. exact delegate_worth. Qed.
Print Assumptions C16_delegate.

Example C16_case :
  c_active (w_cfg w_redeemed) = true /\ c_lstok (w_cfg w_redeemed) = TIssued /\ 501 <> SELF /\ ONE_EGLD <= 40 * E
  /\ ls_worth w_redeemed (40 * E) = 39260969976905311778.
Proof. vm_compute. repeat split; discriminate. Qed.

(** C17 unDelegate: exact effect and availability. *)
Theorem C17_undelegate : forall w u x,
  Reachable w -> c_active (w_cfg w) = true -> c_lstok (w_cfg w) = TIssued -> c_usttok (w_cfg w) = TIssued ->
  u <> SELF -> x <= ls_balance u w -> ONE_EGLD <= egld_worth w x ->
  let e := egld_worth w x in
  let o := OTx u 0 [Pay TokLs x] UnDelegate in let w' := fst (step w o) in
  snd (step w o) = SOk
  /\ paid_out u w w' = e
  /\ ls_balance u w' + x = ls_balance u w /\ (forall v, v <> u -> ls_balance v w' = ls_balance v w)
  /\ (forall n v, v <> SELF -> v <> u -> ust_of n v w' = ust_of n v w)
  /\ (forall v, v <> u -> egld_sent v w' = 0)
  /\ ls_supply w' + x = ls_supply w /\ virtual_reserve w' + e = virtual_reserve w
  /\ contract_egld w' + egld_sent u w' = contract_egld w
  /\ pending_egld w' + egld_sent u w' = pending_egld w
  /\ unstake_queue w' + egld_sent u w' = unstake_queue w + e
  /\ total_withdrawn w' = total_withdrawn w /\ fees_reserve w' = fees_reserve w /\ unbonding w' = unbonding w
  /\ rest_unchanged w w'.
Proof. exact undelegate_worth. Qed.
Print Assumptions C17_undelegate.

(** Case: part paid at once, part in unstake tokens. *)
Example C17_case :
  Reachable w_rewarded /\ c_active (w_cfg w_rewarded) = true /\ 40 * E <= ls_balance 500 w_rewarded
  /\ egld_worth w_rewarded (40 * E) = 40752941176470588235
  /\ c_lstok (w_cfg w_rewarded) = TIssued /\ c_usttok (w_cfg w_rewarded) = TIssued
  /\ egld_sent 500 w_redeemed = 1920000000000000000 /\ ust_balance 500 w_redeemed = 38832941176470588235.
Proof. split; [exact w_rewarded_reach|]. vm_compute. repeat split; discriminate. Qed.

(** C19 The unbonding lock is never bypassed: the release epoch of new tokens, *)
Theorem C19_release_of_new_tokens : forall w u eg pays,
  Reachable w -> w_epoch w + c_unbond (w_cfg w) < 2 ^ 64 -> snd (step w (OTx u eg pays UnDelegate)) = SOk ->
  let w' := fst (step w (OTx u eg pays UnDelegate)) in
  ust_unchanged w w' \/
  exists n r, 0 < r /\ release_epoch n w' = Some (w_epoch w + c_unbond (w_cfg w))
    /\ ust_of n u w' = ust_of n u w + r
    /\ forall k, k <> n -> ust_of k u w' = ust_of k u w.
Proof. exact release_of_new64. Qed.
Print Assumptions C19_release_of_new_tokens.

(** which never changes, *)
Theorem C19_release_never_changes : forall w os n r,
  Reachable w -> release_epoch n w = Some r -> release_epoch n (run w os) = Some r.
Proof. exact release_fixed. Qed.
Print Assumptions C19_release_never_changes.

(** and before which no withdraw with these tokens succeeds. *)
Theorem C19_locked : forall w os n r u eg pays p,
  Reachable w -> release_epoch n w = Some r -> w_epoch (run w os) < r -> In p pays -> y_tok p = TokUst n ->
  snd (step (run w os) (OTx u eg pays Withdraw)) <> SOk.
Proof. exact withdraw_locked. Qed.
Print Assumptions C19_locked.

(** Case: tokens of nonce 1 with release epoch 15; nine epochs are not enough,
    ten are. *)
Example C19_case :
  Reachable w_redeemed /\ release_epoch 1 w_redeemed = Some 15
  /\ snd (step w_rewarded (OTx 500 0 [Pay TokLs (40 * E)] UnDelegate)) = SOk
  /\ w_epoch (run w_redeemed (unstake_ops ++ [OEpoch 9])) = 14
  /\ snd (step (run w_redeemed (unstake_ops ++ [OEpoch 9])) (OTx 500 0 [Pay (TokUst 1) E] Withdraw)) <> SOk
  /\ snd (step w_ready (OTx 500 0 [Pay (TokUst 1) E] Withdraw)) = SOk.
Proof. split; [exact w_redeemed_reach|]. vm_compute. repeat split. discriminate. Qed.

(** C20 withdraw: pays exactly what it burns. *)
Theorem C20_withdraw : forall w u eg pays,
  snd (step w (OTx u eg pays Withdraw)) = SOk ->
  let w' := fst (step w (OTx u eg pays Withdraw)) in
  let p := egld_sent u w' in
  p = N.min (pay_total pays) (total_withdrawn w)
  /\ total_withdrawn w' + p = total_withdrawn w
  /\ contract_egld w' + p = contract_egld w + eg
  /\ ust_balance u w' + p = ust_balance u w
  /\ (forall n v, v <> u -> ust_of n v w' = ust_of n v w)
  /\ (forall n, ust_of n u w' <= ust_of n u w)
  /\ w_pool w' = set_withdrawn (total_withdrawn w - p) (w_pool w)
  /\ w_ls w' = w_ls w /\ w_un w' = w_un w /\ w_attr w' = w_attr w /\ w_last w' = w_last w
  /\ rest_unchanged w w'
  /\ Forall (fun q => 0 < y_amt q /\ exists n r, y_tok q = TokUst n /\ release_epoch n w = Some r /\ r <= w_epoch w) pays
  /\ (pays = [] \/ pay_total (removelast pays) < total_withdrawn w).
Proof. exact withdraw_effects. Qed.
Print Assumptions C20_withdraw.

(** Nonce by nonce: exactly the tokens handed in are gone, except that of the last
    ones handed in the caller keeps what the pot did not cover. *)
Theorem C20_tokens_kept : forall w u eg pays,
  snd (step w (OTx u eg pays Withdraw)) = SOk ->
  let w' := fst (step w (OTx u eg pays Withdraw)) in
  (forall n, pay_of_nonce n pays <= ust_of n u w)
  /\ forall n, ust_of n u w' + pay_of_nonce n pays
       = ust_of n u w + match list.last pays with
                        | Some (Pay (TokUst k) _) => if k =? n then pay_total pays - total_withdrawn w else 0
                        | _ => 0
                        end.
Proof. exact withdraw_tokens. Qed.
Print Assumptions C20_tokens_kept.

(** Case: a full and a partial withdrawal. In the second only 20 EGLD are in
    the pot (a deposit of 20 was matched with the queue), 38.8 are asked for. *)
Definition w_partial : world := run w_redeemed [OTx 501 (20 * E) [] Delegate; OEpoch 10].
Example C20_case :
  let all := [Pay (TokUst 1) (38 * E); Pay (TokUst 1) 832941176470588235] in
  snd (step w_ready (OTx 500 0 all Withdraw)) = SOk
  /\ egld_sent 500 (fst (step w_ready (OTx 500 0 all Withdraw))) = 38832941176470588235
  /\ snd (step w_partial (OTx 500 0 [Pay (TokUst 1) 38832941176470588235] Withdraw)) = SOk
  /\ egld_sent 500 (fst (step w_partial (OTx 500 0 [Pay (TokUst 1) 38832941176470588235] Withdraw))) = 20 * E
  /\ ust_balance 500 (fst (step w_partial (OTx 500 0 [Pay (TokUst 1) 38832941176470588235] Withdraw))) = 18832941176470588235
  (* the second payment finds the pot empty *)
  /\ snd (step w_partial (OTx 500 0 all Withdraw)) <> SOk.
Proof. vm_compute. repeat split. discriminate. Qed.

(** C21 A drained pipeline serves everybody. *)
Theorem C21_pot_covers_all : forall w,
  Reachable w -> unstake_queue w = 0 -> pending_unstaking_total w = 0 -> unbonding w = 0 ->
  ust_of_users w <= total_withdrawn w.
Proof. exact drained_covers. Qed.
Print Assumptions C21_pot_covers_all.

Theorem C21_withdraw_in_full : forall w u pays,
  Reachable w -> unstake_queue w = 0 -> pending_unstaking_total w = 0 -> unbonding w = 0 ->
  u <> SELF -> c_lstok (w_cfg w) = TIssued -> c_active (w_cfg w) = true -> c_usttok (w_cfg w) = TIssued ->
  Forall (fun p => 0 < y_amt p /\ exists n r, y_tok p = TokUst n /\ release_epoch n w = Some r /\ r <= w_epoch w) pays ->
  (forall n, pay_of_nonce n pays <= ust_of n u w) ->
  snd (step w (OTx u 0 pays Withdraw)) = SOk
  /\ egld_sent u (fst (step w (OTx u 0 pays Withdraw))) = pay_total pays.
Proof. exact drained_withdraw. Qed.
Print Assumptions C21_withdraw_in_full.

Example C21_case :
  let pays := [Pay (TokUst 1) (38 * E); Pay (TokUst 1) 832941176470588235] in
  Reachable w_ready /\ unstake_queue w_ready = 0 /\ pending_unstaking_total w_ready = 0 /\ unbonding w_ready = 0
  /\ c_lstok (w_cfg w_ready) = TIssued /\ c_active (w_cfg w_ready) = true /\ c_usttok (w_cfg w_ready) = TIssued
  /\ Forall (fun p => 0 < y_amt p /\ exists n r, y_tok p = TokUst n /\ release_epoch n w_ready = Some r /\ r <= w_epoch w_ready) pays
  /\ (forall n, pay_of_nonce n pays <= ust_of n 500 w_ready)
  /\ ust_of_users w_ready = 38832941176470588235.
Proof.
  cbv zeta. split; [exact w_ready_reach|]. do 6 (split; [vm_compute; reflexivity|]). split.
  { repeat constructor; try (vm_compute; reflexivity); exists 1, 15; vm_compute; repeat split; discriminate. }
  split; [|vm_compute; reflexivity]. intros n. unfold pay_of_nonce. cbn [map y_tok y_amt sumN].
  destruct (1 =? n) eqn:En; [apply N.eqb_eq in En; subst n; vm_compute; discriminate|]. lia.
Qed.

(** C22 The unstake token machinery never fails. *)
Theorem C22_nonces_readable : forall w,
  Reachable w ->
  (forall r n, w_un w !! r = Some n -> release_epoch n w = Some r /\ 0 < ust_of n SELF w)
  /\ (0 < w_last w -> exists e r, w_attr w !! w_last w = Some (e, r) /\ 0 < ust_of (w_last w) SELF w).
Proof. exact nonce_readable. Qed.
Print Assumptions C22_nonces_readable.

Theorem C22_cleaned_nonce_not_reused : forall w os n,
  Reachable w -> n <= w_last w -> (forall u, w_un w !! u <> Some n) -> forall u, w_un (run w os) !! u <> Some n.
Proof. exact cleaned_forever. Qed.
Print Assumptions C22_cleaned_nonce_not_reused.

(** Case: nonce 1 is mapped; a redemption eleven epochs later creates nonce 2 and
    cleans nonce 1. *)
Definition w_nonce2 : world := run w_unbonding [OEpoch 11; OTx 500 0 [Pay TokLs (10 * E)] UnDelegate].
Example C22_case :
  Reachable w_redeemed /\ w_un w_redeemed !! 15 = Some 1 /\ 0 < w_last w_redeemed
  /\ Reachable w_nonce2 /\ 1 <= w_last w_nonce2 /\ (forall u, w_un w_nonce2 !! u <> Some 1)
  /\ w_un w_nonce2 !! 26 = Some 2.
Proof.
  split; [exact w_redeemed_reach|]. split; [vm_compute; reflexivity|]. split; [vm_compute; reflexivity|].
  split; [apply reach_run, w_unbonding_reach|]. split; [vm_compute; discriminate|]. split; [|vm_compute; reflexivity].
  assert (Hm : map_to_list (w_un w_nonce2) = [(26, 2)]) by (vm_compute; reflexivity).
  intros u H. apply elem_of_map_to_list in H. rewrite Hm in H. apply elem_of_list_singleton in H. discriminate.
Qed.

(** C23 Bystander protection. *)
Theorem C23_bystander : forall w o v,
  v <> SELF -> initiator o <> Some v ->
  ls_balance v w <= ls_balance v (fst (step w o)) /\ forall n, ust_of n v w <= ust_of n v (fst (step w o)).
Proof. exact bystander. Qed.
Print Assumptions C23_bystander.

Example C23_case :
  let o := OTx 500 0 [Pay TokLs (40 * E)] UnDelegate in
  100 <> SELF /\ initiator o <> Some 100 /\ snd (step w_rewarded o) = SOk /\ ls_balance 100 w_rewarded = 2 * E.
Proof. vm_compute. repeat split; discriminate. Qed.
