(** L_Proxy.v — the generated client (C123). *)
From Coq Require Import String.
From Verif Require Export Spec18.
From Verif Require Import L_Books L_Codec L_Typed L_Abi L_Wire.
Open Scope N_scope.

Lemma addrs_are l : Forall (fun a => a < 2 ^ 256) l -> are (map is_addr l) (map top_addr l).
Proof.
  induction 1 as [|a l Ha _ IH]; [constructor|]. cbn [map]. constructor; [|exact IH]. by apply top_addr_string.
Qed.
Lemma methods_mean m ep ok : intended m = Some ep -> expressible ep -> decimals_fit m ->
  means ok (text (fst (proxy_call m))) (snd (proxy_call m)) ep.
Proof.
  intros Hi (H1 & H2 & H3) Hd. unfold means.
  destruct m; try discriminate Hi; injection Hi as <-;
    cbn [proxy_call fst snd name parameters addresses numbers] in *; (split; [reflexivity|]); (split; [|exact I]);
    try (match goal with x : option N |- _ => destruct x end); cbn [top_opt] in *;
    try (by apply addrs_are);
    repeat match goal with H : Forall _ (_ :: _) |- _ => let K := fresh "K" in apply list.Forall_cons in H as [K H] end;
    cbn [args_ok decimals_fit] in *; rewrite ?andb_true_iff, ?N.ltb_lt, ?u64_is, ?u32_is in H1; destruct_and?;
    unfold are; repeat first [apply List.Forall2_cons|apply List.Forall2_nil];
    match goal with
    | |- is_num _ _ => apply top_num_string; assumption
    | |- is_addr _ _ => apply top_addr_string; assumption
    | |- is_int 8 _ _ => apply top_u64; assumption
    | |- is_int 4 _ _ => apply top_u32; assumption
    | |- is_bool _ _ => apply bool_string
    | |- is_text _ => exact I
    | |- is_decimals _ => apply top_u32 in Hd as [_ [E K]]; unfold is_decimals; rewrite E; exact K
    | |- is_scoring ?s _ => apply (scoring_string s); unfold fits_scoring; repeat apply List.Forall_cons; try apply List.Forall_nil; assumption
    end.
Qed.
Lemma methods_work m ep : intended m = Some ep -> expressible ep -> decimals_fit m ->
  forall w caller egld pays ok, call_by m w caller egld pays ok = step w (OTx caller egld pays ep).
Proof.
  intros Hi He Hd w caller egld pays ok. unfold call_by, step_bytes.
  by rewrite (understands _ _ _ _ (methods_mean m ep ok Hi He Hd)).
Qed.
(** A method never does anything else than what is meant. *)
Lemma means_name ok n args ep : means ok (text n) args ep -> name ep = n.
Proof. intros [H _]. symmetry. by apply text_inj. Qed.
Lemma no_rewards w caller egld pays ok : fst (call_by ViaDelegateRewards w caller egld pays ok) = set_log [] w
  /\ snd (call_by ViaDelegateRewards w caller egld pays ok) = SErr EDecode.
Proof.
  unfold call_by, step_bytes. cbn [proxy_call fst snd]. unfold decode_call. rewrite find_text.
  cbn [endpoints List.find fst snd String.eqb Ascii.eqb Bool.eqb]. done.
Qed.
Lemma no_fees m ok b : ~ means ok (text (fst (proxy_call m))) (snd (proxy_call m)) (ClaimFees b).
Proof. intros H. apply means_name in H. cbn [name] in H. destruct m; discriminate H. Qed.
Lemma within_reach ep : (forall b, ep <> ClaimFees b) -> exists m, intended m = Some ep /\ decimals_fit m.
Proof.
  intros H. destruct ep;
    [exists ViaDelegate|exists ViaUnDelegate|exists ViaWithdraw|eexists (ViaDelegatePending _)|eexists (ViaUnDelegatePending _)
    |eexists (ViaWithdrawPending _)|exists ViaClaimRewards| |eexists (ViaWhitelist _ _ _ _ _ _)|eexists (ViaChangeAdmin _ _)
    |eexists (ViaChangeParams _ _ _ _ _ _)|exists (ViaRegisterLsToken [] [] 0)|exists (ViaRegisterUnstakeToken [] [] 0)|exists ViaSetStateActive
    |exists ViaSetStateInactive|eexists (ViaSetAccumulatorContract _)|eexists (ViaSetFees _)|eexists (ViaSetMinimumRounds _)
    |eexists (ViaSetMaxAddresses _)|eexists (ViaSetMaxSelectedProviders _)|eexists (ViaSetUnbondPeriod _)|eexists (ViaSetManagers _)
    |eexists (ViaRemoveManager _)|eexists (ViaSetScoringConfig _)|eexists (ViaMigrate _ _)|exists ViaMigratePending|exists ViaAddRewards
    |eexists (ViaAddMigrationScAddress _)];
    try (split; [cbn [intended]; reflexivity|cbn [decimals_fit]; first [exact I|lia]]).
  by destruct (H accumulator_ok).
Qed.
Lemma payments m ep : intended m = Some ep -> (with_payment m = true <-> payable_of ep <> PayNone).
Proof. intros H. destruct m; try discriminate H; injection H as <-; cbn [with_payment payable_of]; split; congruence. Qed.

Lemma init_works owner acc fees rpe minr maxsel maxaddr unbond epoch :
  acc < 2 ^ 256 -> rpe < 2 ^ 64 -> minr < 2 ^ 64 -> maxaddr < 2 ^ 32 -> unbond < 2 ^ 64 ->
  deploy_bytes owner epoch (proxy_init acc fees rpe minr maxsel maxaddr unbond)
  = deploy owner acc fees rpe minr maxsel maxaddr unbond epoch.
Proof.
  intros H1 H3 H4 H6 H7. unfold deploy_bytes, proxy_init.
  apply top_u64 in H3 as [_ H3], H4 as [_ H4], H7 as [_ H7]. apply top_u32 in H6 as [_ H6].
  apply (arg_int_iff 8) in H3, H4, H7. apply (arg_int_iff 4) in H6.
  cbn [arg]. rewrite (get_addr_top _ H1). cbn [arg arg_big]. rewrite H3. cbn [arg]. rewrite H4. cbn [arg arg_big].
  rewrite H6. cbn [arg]. rewrite H7. cbn [no_more]. by rewrite !num_top.
Qed.

(** ** Answers *)
Lemma addrs_read l : Forall (fun a => a < 2 ^ 256) l -> any_number get_addr SAddrs (map top_addr l) = Some (SAddrs l).
Proof.
  assert (forall f : list addr -> result, Forall (fun a => a < 2 ^ 256) l -> any_number get_addr f (map top_addr l) = Some (f l)) as K;
    [|apply K].
  induction l as [|a l IH]; intros f Hl; [done|]. apply list.Forall_cons in Hl as [Ha Hl].
  cbn [map any_number]. rewrite get_addr_top by done. by rewrite IH.
Qed.
Lemma read_top k : one_value arg_big SNum [top_num k] = Some (SNum k).
Proof. cbn [one_value option_map arg_big]. by rewrite num_top. Qed.
Lemma read_u64 k : k < 2 ^ 64 -> one_value (arg_int 8) SNum [top_num k] = Some (SNum k).
Proof. intros H. cbn [one_value]. apply top_u64 in H as [_ H]. apply (arg_int_iff 8) in H. by rewrite H. Qed.
Lemma read_u32 k : k < 2 ^ 32 -> one_value (arg_int 4) SNum [top_num k] = Some (SNum k).
Proof. intros H. cbn [one_value]. apply top_u32 in H as [_ H]. apply (arg_int_iff 4) in H. by rewrite H. Qed.
Lemma read_addr a : a < 2 ^ 256 -> one_value get_addr SAddr [top_addr a] = Some (SAddr a).
Proof. intros H. cbn [one_value]. by rewrite get_addr_top. Qed.
Lemma sent_read r : match sent r with Some l => one_value arg_big SNum l | None => None end = if_ok r.
Proof. destruct r as [x|]; cbn [sent if_ok]; [apply read_top|done]. Qed.
Lemma answers_true s w q : shows s w -> fits w -> askable q -> ~ outdated q -> through_proxy q s = truth q w.
Proof.
  unfold shows. cbv zeta.
  intros (V1 & V2 & V3 & V4 & V5 & V6 & V7 & V8 & V9 & V10 & V11 & V12 & V13 & V14 & V15 & V16 & V17 & V18 & V19 & V20 & V21 & V22
          & V23 & V24 & V25 & V26 & V27) HF Ha Ho.
  destruct HF as (F1 & F2 & F3 & F4 & F5 & F6 & F7 & F8 & _ & F9 & F10 & _ & F12).
  unfold through_proxy. destruct q; cbn [proxy_ask fst snd proxy_read truth askable outdated] in *;
    try (exfalso; by apply Ho).
  - rewrite (V22 x) by (unfold is_num; by rewrite <- num_value, num_top). apply sent_read.
  - rewrite (V23 x) by (unfold is_num; by rewrite <- num_value, num_top). apply sent_read.
  - rewrite V21. apply sent_read.
  - apply top_addr_string in Ha as [B A]. rewrite (V25 c _ B A), sent_read. unfold view_staked, get_prov.
    by destruct (w_pv w !! c).
  - apply top_addr_string in Ha as [B A]. rewrite (V26 c _ B A), sent_read. unfold view_unstaked, get_prov.
    by destruct (w_pv w !! c).
  - rewrite V19. by apply addrs_read.
  - rewrite V20. by apply addrs_read.
  - rewrite V11. by apply addrs_read.
  - rewrite V9. destruct (c_score (w_cfg w)) as [x|]; [|done]. cbn [sent_opt one_value].
    change proxy_get_scoring with get_scoring. by rewrite (scoring_back x (F6 x eq_refl)).
  - rewrite V2. apply read_top.
  - rewrite V3. by apply read_addr.
  - rewrite V4. by apply read_u64.
  - rewrite V5. by apply read_u64.
  - rewrite V1. by destruct (c_active (w_cfg w)).
  - rewrite V12. apply read_top.
  - rewrite V13. apply read_top.
  - rewrite V15. apply read_top.
  - rewrite V16. apply read_top.
  - rewrite V17. apply read_top.
  - rewrite V18. apply read_top.
  - apply top_u64 in Ha as [_ A]. rewrite (V27 epoch _ A). apply read_u64.
    destruct (w_un w !! epoch) as [n|] eqn:E; [by apply (F12 _ _ E)|done].
  - rewrite V6. by apply read_u32.
  - rewrite V7. apply read_top.
  - rewrite V8. by apply read_u64.
  - rewrite V10. destruct (c_migr (w_cfg w)) as [a|]; [|done]. cbn [sent_opt]. by apply read_addr, F7.
Qed.

Lemma info_surplus p : fits_prov p -> read_info (put_prov p) = None.
Proof.
  intros (Ha & Hn & Hy & HF). repeat (apply list.Forall_cons in HF; destruct HF as [? HF]).
  destruct p as [ad t k n y st un el ps pu]; cbn [p_admin p_total p_cap p_nodes p_apy p_staked p_unstaked p_elig p_pst p_pun] in *.
  unfold read_info, put_prov, whole, rd; cbn [p_admin p_total p_cap p_nodes p_apy p_staked p_unstaked p_elig p_pst p_pun].
  rewrite <- ?app_assoc.
  rewrite read_be_app by exact Ha. do 2 rewrite read_num_app by assumption.
  do 2 rewrite read_be_app by assumption. do 2 rewrite read_num_app by assumption. rewrite read_bool_app.
  cbn [yield]. unfold nest_num. cbn [be app]. done.
Qed.
Lemma reserve_unasked s : through_proxy QRewardsReserve s = None.
Proof. unfold through_proxy. cbn [proxy_ask fst snd]. rewrite query_text. cbn [views List.find fst snd String.eqb Ascii.eqb Bool.eqb]. done. Qed.
Lemma info_unread s w c : shows s w -> fits w -> c < 2 ^ 256 -> through_proxy (QDelegationContractData c) s = None.
Proof.
  unfold shows. cbv zeta.
  intros (V1 & V2 & V3 & V4 & V5 & V6 & V7 & V8 & V9 & V10 & V11 & V12 & V13 & V14 & V15 & V16 & V17 & V18 & V19 & V20 & V21 & V22
          & V23 & V24 & V25 & V26 & V27) HF Hc.
  destruct HF as (F1 & F2 & F3 & F4 & F5 & F6 & F7 & F8 & _ & F9 & F10 & F11 & F12).
  apply top_addr_string in Hc as [B A]. unfold through_proxy. cbn [proxy_ask fst snd proxy_read]. rewrite (V24 c _ B A).
  destruct (w_pv w !! c) as [p|] eqn:E; [|done]. cbn [sent_opt one_value]. by rewrite (info_surplus p) by apply (F11 _ _ E).
Qed.

Lemma along_at (P : world -> Prop) os : forall w n, along (fun v _ => P v) w os -> P (run w os) -> P (run w (take n os)).
Proof.
  induction os as [|o os IH]; intros w n H Hn; [by destruct n|]. destruct H as [H0 H]. destruct n as [|n]; [exact H0|].
  cbn [take run] in *. by apply IH.
Qed.
Lemma bytes_answers owner epoch args w xs os n : Forall byte_string args -> deploy_bytes owner epoch args = Ok w ->
  Forall proper xs -> Forall2 stands_for xs os ->
  tally receives w os < 2 ^ 256 -> tally names_managers w os < 2 ^ 32 -> N.of_nat (List.length xs) < 2 ^ 64 ->
  tally insertions w os < 2 ^ 32 ->
  exists ms s, each do_call ms (fun _ => []) = Some s /\ reads s (act_run w (take n xs)) /\ fits (act_run w (take n xs)).
Proof.
  intros Hb Hd Hp Hs H1 H2 H3 H4. destruct (bytes_storage _ _ _ _ _ _ Hb Hd Hp Hs H1 H2 H3 H4) as (ms & s & E & Hk).
  destruct (keeps_up_shows os s w n Hk) as (ms' & s' & E' & Hr). exists (ms ++ ms'), s'.
  assert (act_run w (take n xs) = run w (take n os)) as -> by (apply stands_run; by apply list.Forall2_take).
  split; [rewrite (each_app' _ _ _ _ _ E); exact E'|]. split; [exact Hr|].
  apply deploy_iff in Hd as (acc & fees & rpe & minr & maxsel & maxaddr & unbond & Ha & Hd).
  assert (c_acc (w_cfg w) < 2 ^ 256) as Hacc.
  { unfold are, init_parameters in Ha. apply list.Forall2_cons_inv_l in Ha as (b & r & [L V] & _ & ->).
    apply list.Forall_cons in Hb as [[B _] _]. apply value_lt in B. rewrite L in B.
    unfold deploy in Hd. apply rbind_ok in Hd as [[] [_ Hd]]. apply rbind_ok in Hd as [g [Eg Hd]]. rstep Hd.
    unfold init in Eg. apply rbind_ok in Eg as [[] [_ Eg]]. apply rbind_ok in Eg as [[] [_ Eg]]. rstep Eg.
    cbn [w_cfg c_acc]. exact B. }
  assert (Deployed w) as HD by (by do 9 eexists).
  destruct (small_run os 0 0 0 w (deployed_reach w HD)) as [F1 F2]; try done.
  - by eapply stands_typed.
  - by apply small_deployed.
  - rewrite <- (list.Forall2_length _ _ _ Hs). lia.
  - by apply along_at.
Qed.
Lemma proxy_history owner epoch args w xs os n : Forall byte_string args -> deploy_bytes owner epoch args = Ok w ->
  Forall proper xs -> Forall2 stands_for xs os ->
  tally receives w os < 2 ^ 256 -> tally names_managers w os < 2 ^ 32 -> N.of_nat (List.length xs) < 2 ^ 64 ->
  tally insertions w os < 2 ^ 32 ->
  exists ms s, each do_call ms (fun _ => []) = Some s /\
    (forall q, askable q -> ~ outdated q -> through_proxy q s = truth q (act_run w (take n xs)))
    /\ forall q, askable q -> outdated q -> through_proxy q s = None.
Proof.
  intros Hb Hd Hp Hs H1 H2 H3 H4. destruct (bytes_answers _ _ _ _ _ _ n Hb Hd Hp Hs H1 H2 H3 H4) as (ms & s & E & Hr & Hf).
  exists ms, s. split; [exact E|]. apply views_show in Hr. split.
  - intros q Ha Ho. by apply answers_true.
  - intros q Ha Ho. destruct q; try (exfalso; exact Ho); [by eapply info_unread|apply reserve_unasked].
Qed.
Lemma info_refused s w c p : reads s w -> fits w -> w_pv w !! c = Some p ->
  through_proxy (QDelegationContractData c) s = None /\ truth (QDelegationContractData c) w <> None.
Proof.
  intros Hr Hf Hc. split.
  - eapply info_unread; [by apply views_show|exact Hf|]. destruct Hf as (_ & _ & _ & _ & _ & _ & _ & _ & _ & _ & _ & F & _). by apply (F _ _ Hc).
  - cbn [truth]. by rewrite Hc.
Qed.
Lemma methods_wrong : exists m, intended m = None /\ forall w caller egld pays ok,
  fst (call_by m w caller egld pays ok) = set_log [] w /\ snd (call_by m w caller egld pays ok) <> SOk.
Proof.
  exists ViaDelegateRewards. split; [done|]. intros w caller egld pays ok.
  destruct (no_rewards w caller egld pays ok) as [H1 H2]. split; [exact H1|]. by rewrite H2.
Qed.
Lemma answers_wrong w : (exists s, reads s w) -> fits w -> w_pv w !! 1000 <> None -> exists s w, reads s w /\ fits w
  /\ through_proxy (QDelegationContractData 1000) s <> truth (QDelegationContractData 1000) w
  /\ through_proxy QRewardsReserve s <> truth QRewardsReserve w.
Proof.
  intros [s Hr] Hf Hc. exists s, w. split; [exact Hr|]. split; [exact Hf|]. destruct (w_pv w !! 1000) as [p|] eqn:E; [|done].
  destruct (info_refused s w 1000 p Hr Hf E) as [H1 H2]. split; [|by rewrite reserve_unasked].
  rewrite H1. intros K. by rewrite <- K in H2.
Qed.
