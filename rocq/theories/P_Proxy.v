(** P_Proxy.v — property C123: the generated client of the contract. *)
From Coq Require Import String.
From Verif Require Import L_Proxy L_Abi L_Track Scenario P_Abi.
Open Scope N_scope.

(** C123 in full: every method of the generated client does what its name says, and every
    question is answered with the truth. It is false: the client is older than the contract. *)
(** delegate_rewards calls a function that does not exist, so it always fails, *)
Theorem C123_methods_refuted : exists m, intended m = None /\ forall w caller egld pays ok,
  fst (call_by m w caller egld pays ok) = set_log [] w /\ snd (call_by m w caller egld pays ok) <> SOk.
Proof. exact methods_wrong. Qed.
Print Assumptions C123_methods_refuted.
(** rewards are claimed by another method, which works *)
Example C123_methods_refuted_case :
  snd (call_by ViaDelegateRewards w_staked 100 0 [] true) = SErr EDecode
  /\ snd (call_by ViaClaimRewards w_staked 100 0 [] true) = SOk.
Proof. vm_compute. repeat split. Qed.

(** and every other method does exactly what the endpoint it is meant for does with these
    parameters. Missing: delegate_rewards, as above. *)
Theorem C123_methods_partial : forall m ep, intended m = Some ep -> expressible ep -> decimals_fit m ->
  forall w caller egld pays ok, call_by m w caller egld pays ok = step w (OTx caller egld pays ep).
Proof. exact methods_work. Qed.
Print Assumptions C123_methods_partial.
Example C123_methods_partial_case :
  let m := ViaWhitelist 1000 77 0 (300 * E) 10 800 in
  intended m = Some (Whitelist 1000 77 0 (300 * E) 10 800) /\ expressible (Whitelist 1000 77 0 (300 * E) 10 800) /\ decimals_fit m
  /\ snd (proxy_call m) = [top_addr 1000; top_addr 77; []; [16; 67; 86; 26; 136; 41; 48; 0; 0]; [10]; [3; 32]]
  /\ snd (call_by m w_setup 100 E [] true) <> SErr EDecode.
Proof.
  cbv zeta. split; [reflexivity|]. split; [by repeat constructor|]. split; [exact I|]. split; [vm_compute; reflexivity|].
  vm_compute. discriminate.
Qed.

(** A payment can go along with exactly those methods whose endpoint accepts one. *)
Theorem C123_payments : forall m ep, intended m = Some ep -> (with_payment m = true <-> payable_of ep <> PayNone).
Proof. exact payments. Qed.
Print Assumptions C123_payments.
Example C123_payments_case :
  with_payment ViaWithdraw = true /\ payable_of Withdraw = PayAny
  /\ with_payment (ViaMigrate E 500) = false /\ payable_of (Migrate E 500) = PayNone.
Proof. repeat split. Qed.

(** claimFees cannot be called through the client; everything else that can be called at
    all can. *)
Theorem C123_out_of_reach : forall m ok b, ~ means ok (text (fst (proxy_call m))) (snd (proxy_call m)) (ClaimFees b).
Proof. exact no_fees. Qed.
Print Assumptions C123_out_of_reach.
Theorem C123_within_reach : forall ep, (forall b, ep <> ClaimFees b) -> exists m, intended m = Some ep /\ decimals_fit m.
Proof. exact within_reach. Qed.
Print Assumptions C123_within_reach.
Example C123_reach_case :
  means true (text "claimFees"%string) [] (ClaimFees true)
  /\ intended (ViaSetScoringConfig scfg_default) = Some (SetScoringConfig scfg_default)
  /\ (forall b, SetScoringConfig scfg_default <> ClaimFees b).
Proof. split; [|split; [reflexivity|discriminate]]. apply understood. vm_compute. reflexivity. Qed.

(** A deployment through the client sets what it is given. *)
Theorem C123_deployment : forall owner acc fees rpe minr maxsel maxaddr unbond epoch,
  acc < 2 ^ 256 -> rpe < 2 ^ 64 -> minr < 2 ^ 64 -> maxaddr < 2 ^ 32 -> unbond < 2 ^ 64 ->
  deploy_bytes owner epoch (proxy_init acc fees rpe minr maxsel maxaddr unbond)
  = deploy owner acc fees rpe minr maxsel maxaddr unbond epoch.
Proof. exact init_works. Qed.
Print Assumptions C123_deployment.
Example C123_deployment_case :
  deploy_bytes 100 5 (proxy_init 200 400 14400 10 20 50 10) = Ok w0
  /\ 200 < 2 ^ 256 /\ 14400 < 2 ^ 64 /\ 10 < 2 ^ 64 /\ 50 < 2 ^ 32.
Proof. vm_compute. repeat split. Qed.

(** Questions: the record of a provider has two fields more than the client knows, so its
    answer cannot be read, and the rewards reserve has another name by now. *)
Lemma byte_store : exists s, reads s (run w0 byte_ops).
Proof. destruct C115_views_case as (s & H & _). by exists s. Qed.
Lemma byte_fits : fits (run w0 byte_ops).
Proof. apply fits_by_test. vm_compute. reflexivity. Qed.
Lemma byte_record : w_pv (run w0 byte_ops) !! 1000 <> None.
Proof. vm_compute. discriminate. Qed.
Theorem C123_answers_refuted : exists s w, reads s w /\ fits w
  /\ through_proxy (QDelegationContractData 1000) s <> truth (QDelegationContractData 1000) w
  /\ through_proxy QRewardsReserve s <> truth QRewardsReserve w.
Proof. exact (answers_wrong (run w0 byte_ops) byte_store byte_fits byte_record). Qed.
Print Assumptions C123_answers_refuted.
(** It is so for every record there is. *)
Theorem C123_info_never : forall s w c p, reads s w -> fits w -> w_pv w !! c = Some p ->
  through_proxy (QDelegationContractData c) s = None /\ truth (QDelegationContractData c) w <> None.
Proof. exact info_refused. Qed.
Print Assumptions C123_info_never.
Example C123_info_never_case : exists s p, reads s (run w0 byte_ops) /\ fits (run w0 byte_ops)
  /\ w_pv (run w0 byte_ops) !! 1000 = Some p /\ p_staked p = 101 * E
  /\ query (text "getDelegationContractInfo"%string) [top_addr 1000] s = Some [put_prov p].
Proof.
  destruct byte_store as [s Hr]. destruct (w_pv (run w0 byte_ops) !! 1000) as [p|] eqn:Hp; [|by destruct byte_record].
  exists s, p. split; [exact Hr|]. split; [exact byte_fits|]. split; [done|]. split.
  - assert (option_map p_staked (w_pv (run w0 byte_ops) !! 1000) = Some (101 * E)) as K by (vm_compute; reflexivity).
    rewrite Hp in K. by injection K.
  - apply views_show in Hr. unfold shows in Hr. cbv zeta in Hr.
    destruct Hr as (_ & _ & _ & _ & _ & _ & _ & _ & _ & _ & _ & _ & _ & _ & _ & _ & _ & _ & _ & _ & _ & _ & _ & V & _).
    destruct (top_addr_string 1000) as [B A]; [lia|]. by rewrite (V 1000 _ B A), Hp.
Qed.

(** Every other question is answered with the truth, whatever the state. Missing: the two
    questions above. *)
Theorem C123_answers_partial : forall s w q, shows s w -> fits w -> askable q -> ~ outdated q -> through_proxy q s = truth q w.
Proof. exact answers_true. Qed.
Print Assumptions C123_answers_partial.
Example C123_answers_partial_case : exists s, shows s (run w0 byte_ops) /\ fits (run w0 byte_ops)
  /\ through_proxy QState s = Some (SState true) /\ through_proxy QVirtualEgldReserve s = Some (SNum (61 * E))
  /\ through_proxy QScoringConfig s = Some (SScoring scfg_default)
  /\ through_proxy (QUnstakeTokenNonce 15) s = Some (SNum 1) /\ through_proxy (QUnstakeTokenNonce 14) s = Some (SNum 0).
Proof.
  destruct byte_store as [s Hr]. apply views_show in Hr. exists s. split; [exact Hr|]. split; [exact byte_fits|].
  assert (forall q, askable q -> ~ outdated q -> forall a, truth q (run w0 byte_ops) = a -> through_proxy q s = a) as T
    by (intros q H1 H2 a <-; exact (answers_true _ _ _ Hr byte_fits H1 H2)).
  split; [|split; [|split; [|split]]]; (apply T; [|intros K; exact K|vm_compute; reflexivity]); first [exact I|reflexivity].
Qed.
(** So it is at every moment of every history of calls given as bytes. *)
Theorem C123_always_partial : forall owner epoch args w xs os n,
  Forall byte_string args -> deploy_bytes owner epoch args = Ok w -> Forall proper xs -> Forall2 stands_for xs os ->
  tally receives w os < 2 ^ 256 -> tally names_managers w os < 2 ^ 32 -> N.of_nat (List.length xs) < 2 ^ 64 ->
  tally insertions w os < 2 ^ 32 ->
  exists ms s, each do_call ms (fun _ => []) = Some s /\
    (forall q, askable q -> ~ outdated q -> through_proxy q s = truth q (act_run w (take n xs)))
    /\ forall q, askable q -> outdated q -> through_proxy q s = None.
Proof. exact proxy_history. Qed.
Print Assumptions C123_always_partial.
(** its hypotheses are those of [C114_storage_case]; a question then is answered with *)
Example C123_always_partial_case : exists ms s, each do_call ms (fun _ => []) = Some s
  /\ through_proxy QDelegationAddressesList s = Some (SAddrs [1000])
  /\ through_proxy (QStakedAmount 1000) s = Some (SNum (101 * E))
  /\ through_proxy (QDelegationContractData 1000) s = None.
Proof.
  destruct C114_storage_case as (H1 & H2 & H3 & H4 & [_ H5] & H6 & H7 & [_ H8]).
  destruct (proxy_history _ _ _ _ _ _ (List.length byte_acts) H1 H2 H3 H4 H5 H6 H7 H8) as (ms & s & K & Kt & Kf).
  assert (forall q, askable q -> ~ outdated q -> forall a, truth q (act_run w0 (take (List.length byte_acts) byte_acts)) = a ->
    through_proxy q s = a) as T by (intros q Z1 Z2 a <-; exact (Kt q Z1 Z2)).
  exists ms, s. split; [exact K|]. split; [|split; [|apply Kf; [reflexivity|exact I]]];
    (apply T; [|intros Z; exact Z|vm_compute; reflexivity]); first [exact I|reflexivity].
Qed.
