(** Scenario.v — concrete histories used as witnesses: examples that the
    hypotheses of the theorems are met, and counterexamples. Nothing here is a
    property of the contract. *)
From Verif Require Export Spec.

(** one EGLD *)
Definition E : N := 1000000000000000000.

(** A deployment: owner 100, accumulator 200, fees 4%, at most 20 selected
    providers, at most 50 addresses, unbonding period 10, at epoch 5. *)
Definition w0 : world :=
  World (Cfg false 400 200 14400 10 50 20 10 None None [] TNotSet TNotSet)
        (Pool 0 0 0 0 0 0 0) [] [] ∅ ∅ 0 ∅ ∅ ∅ 0 5 100 [] [] ∅ [].

Lemma w0_deployed : deploy 100 200 400 14400 10 20 50 10 5 = Ok w0.
Proof. vm_compute. reflexivity. Qed.

Lemma w0_reach : Reachable w0.
Proof. exact (reach_deploy _ _ _ _ _ _ _ _ _ _ w0_deployed). Qed.

Lemma reach_run w os : Reachable w -> Reachable (run w os).
Proof. revert w. induction os as [|o os IH]; intros w H; [exact H|]. apply IH. by constructor. Qed.

Definition clean_b (s : status) : bool := match s with SCbFail _ => false | _ => true end.

Lemma clean_run w os :
  forallb clean_b (statuses w os) = true -> ReachableClean w -> ReachableClean (run w os).
Proof.
  revert w. induction os as [|o os IH]; intros w H Hw; [exact Hw|].
  cbn [statuses forallb run] in *. apply andb_true_iff in H as [H1 H2]. apply IH; [done|]. apply clean_step; [done|].
  intros Hf. unfold clean_b in H1. destruct (snd (step w o)); done.
Qed.

(** Both tokens issued, contract active, scoring set, two providers (1000 and
    1001) whitelisted by the owner with 1 EGLD each, user 500 deposited 100. *)
Definition setup_ops : list op :=
  [OTx 100 5 [] RegisterLsToken; OExec 0 (Some 0); OCb 0;
   OTx 100 5 [] RegisterUnstakeToken; OExec 0 (Some 0); OCb 0;
   OTx 100 0 [] SetStateActive;
   OTx 100 0 [] (SetScoringConfig scfg_default);
   OTx 100 E [] (Whitelist 1000 77 0 0 10 800); OExec 0 (Some 0); OCb 0;
   OTx 100 E [] (Whitelist 1001 78 (3 * E) (500 * E) 20 900); OExec 0 (Some 0); OCb 0].

Definition deposit_ops : list op := [OTx 500 (100 * E) [] Delegate].
(** the deposit is delegated and confirmed by both providers *)
Definition stake_ops : list op :=
  [OTx 100 0 [] (DelegatePending None); OExec 0 (Some 0); OExec 0 (Some 0); OCb 0; OCb 0].
(** rewards of 2 EGLD arrive *)
Definition reward_ops : list op := [OTx 100 0 [] ClaimRewards; OExec 0 (Some (2 * E)); OCb 0].
(** user 500 redeems 40 LS tokens *)
Definition redeem_ops : list op := [OTx 500 0 [Pay TokLs (40 * E)] UnDelegate].
(** the queue is un-delegated and confirmed *)
Definition unstake_ops : list op :=
  [OTx 100 0 [] (UnDelegatePending None); OExec 0 (Some 0); OExec 0 (Some 0); OCb 0; OCb 0].

Definition w_setup : world := run w0 setup_ops.
Definition w_deposit : world := run w_setup deposit_ops.
Definition w_staked : world := run w_deposit stake_ops.
Definition w_rewarded : world := run w_staked reward_ops.
Definition w_redeemed : world := run w_rewarded redeem_ops.
Definition w_unbonding : world := run w_redeemed unstake_ops.

Lemma w_setup_reach : Reachable w_setup. Proof. apply reach_run, w0_reach. Qed.
Lemma w_deposit_reach : Reachable w_deposit. Proof. apply reach_run, w_setup_reach. Qed.
Lemma w_staked_reach : Reachable w_staked. Proof. apply reach_run, w_deposit_reach. Qed.
Lemma w_rewarded_reach : Reachable w_rewarded. Proof. apply reach_run, w_staked_reach. Qed.
Lemma w_redeemed_reach : Reachable w_redeemed. Proof. apply reach_run, w_rewarded_reach. Qed.
Lemma w_unbonding_reach : Reachable w_unbonding. Proof. apply reach_run, w_redeemed_reach. Qed.

Lemma w0_is_deployed : Deployed w0.
Proof. do 9 eexists. exact w0_deployed. Qed.

(** the whole history up to [w_unbonding] *)
Definition unbonding_ops : list op :=
  setup_ops ++ deposit_ops ++ stake_ops ++ reward_ops ++ redeem_ops ++ unstake_ops.

(** the batch of un-delegations is out: one executed, none answered *)
Definition inflight_ops : list op :=
  setup_ops ++ deposit_ops ++ stake_ops ++ reward_ops ++ redeem_ops
  ++ [OTx 100 0 [] (UnDelegatePending None); OExec 1 (Some 0)].

Lemma clean_history_b w os : forallb clean_b (statuses w os) = true -> clean_history w os.
Proof.
  unfold clean_history. intros H. apply List.Forall_forall. intros s Hs Hf.
  rewrite forallb_forall in H. specialize (H s Hs). by destruct s.
Qed.

(** the supply stays positive along a history *)
Fixpoint pos_b (w : world) (os : list op) : bool :=
  (0 <? ls_supply w) && match os with [] => true | o :: r => pos_b (fst (step w o)) r end.

Lemma always_pos w os : pos_b w os = true -> always (fun v => 0 < ls_supply v) w os.
Proof.
  revert w. induction os as [|o os IH]; intros w H; cbn [pos_b always] in *; apply andb_true_iff in H as [H1 H2];
    apply N.ltb_lt in H1; split; auto.
Qed.

(** ten epochs later everything that was unbonding is withdrawn to the contract *)
Definition ready_ops : list op :=
  [OEpoch 10; OTx 100 0 [] (WithdrawPending 1000); OTx 100 0 [] (WithdrawPending 1001);
   OExec 0 (Some 25038217711350872307); OExec 0 (Some 13794723465119715928); OCb 0; OCb 0].
Definition w_ready : world := run w_unbonding ready_ops.
Lemma w_ready_reach : Reachable w_ready. Proof. apply reach_run, w_unbonding_reach. Qed.

Definition ok_b (s : status) : bool := match s with SOk => true | _ => false end.
Lemma all_ok w os : forallb ok_b (statuses w os) = true -> Forall (eq SOk) (statuses w os).
Proof.
  intros H. apply List.Forall_forall. intros s Hs. rewrite forallb_forall in H. specialize (H s Hs). by destruct s.
Qed.

(** deciding [orderly] along a history *)
Definition opt_eqb (a b : option N) : bool :=
  match a, b with Some x, Some y => x =? y | None, None => true | _, _ => false end.
Definition orderly_b (w : world) (o : op) : bool :=
  match o with
  | OCb i =>
      match nth_error (w_res w) i with
      | Some (k, _) =>
          forallb (fun x => opt_eqb (provider_of k) None || negb (opt_eqb (provider_of (fst x)) (provider_of k)))
            (firstn i (w_res w))
          && match k with
             | KWhite _ a _ => match c_lstok (w_cfg w) with TIssued => true | _ => false end
                 && ((virtual_reserve w =? 0) || (virtual_reserve w <=? a * ls_supply w))
             | KClaim _ => c_fees (w_cfg w) <=? 10000
             | _ => true
             end
      | None => true
      end
  | OProvider _ _ _ | OAbort _ => false
  | _ => true
  end.
Fixpoint along_b (f : world -> op -> bool) (w : world) (os : list op) : bool :=
  match os with [] => true | o :: r => f w o && along_b f (fst (step w o)) r end.

Lemma along_sound (f : world -> op -> bool) (P : world -> op -> Prop) w os :
  (forall v o, f v o = true -> P v o) -> along_b f w os = true -> along P w os.
Proof.
  intros H. revert w. induction os as [|o os IH]; intros w K; [done|]. cbn in *. apply andb_true_iff in K as [K1 K2].
  split; [by apply H|by apply IH].
Qed.

Lemma orderly_sound w o : orderly_b w o = true -> orderly w o.
Proof.
  destruct o; try done. unfold orderly_b, orderly. destruct (nth_error (w_res w) i) as [[k r]|]; [|done].
  intros K. apply andb_true_iff in K as [K1 K2]. split.
  - intros j k' r' Hj Hn. rewrite forallb_forall in K1. specialize (K1 (k', r')). cbn in K1.
    assert (In (k', r') (firstn i (w_res w))) as Hin.
    { rewrite <- (firstn_skipn i (w_res w)) in Hn. rewrite nth_error_app1 in Hn; [by eapply nth_error_In|].
      assert (j < length (firstn i (w_res w) ++ skipn i (w_res w)))%nat by (apply nth_error_Some; congruence).
      rewrite firstn_skipn in H. rewrite firstn_length. lia. }
    specialize (K1 Hin). destruct (provider_of k) as [x|]; [right|by left]. destruct (provider_of k') as [y|]; [|done].
    cbn in K1. intros [= ->]. by rewrite N.eqb_refl in K1.
  - destruct k; try done; [by apply N.leb_le|]. apply andb_true_iff in K2 as [K2 K3]. split; [by destruct (c_lstok (w_cfg w))|].
    apply orb_true_iff in K3 as [K3|K3]; [left; by apply N.eqb_eq|right; by apply N.leb_le].
Qed.

Lemma orderly_along w os : along_b orderly_b w os = true -> along orderly w os.
Proof. apply along_sound. exact orderly_sound. Qed.
