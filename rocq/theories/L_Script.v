(** L_Script.v — the operators' script (C124). *)
From Coq Require Import String.
From Verif Require Export Spec19.
From Verif Require Import L_Step L_Pool L_Books L_Codec L_Typed L_Abi L_Wire L_Start L_Proxy L_Acct L_Net L_Inv L_Reply L_Donate.
Open Scope N_scope.

Lemma mx_value k : value (mx_num k) = k.
Proof. unfold mx_num. destruct (k =? 0) eqn:E; [by apply N.eqb_eq in E as ->|]. by rewrite <- num_value, num_top. Qed.
Lemma mx_is_num k : is_num k (mx_num k).
Proof. exact (mx_value k). Qed.
Lemma mx_is_u64 k : k < 2 ^ 64 -> is_int 8 k (mx_num k).
Proof. intros H. split; [apply mx_value|exact H]. Qed.
Lemma mx_is_u32 k : k < 2 ^ 32 -> is_int 4 k (mx_num k).
Proof. intros H. split; [apply mx_value|exact H]. Qed.
Lemma mx_is_addr a : a < 2 ^ 256 -> is_addr a (mx_addr a).
Proof. apply top_addr_string. Qed.

Lemma commands_mean v c ok : settings_fit v -> ~ misnamed c ->
  means ok (text (fst (script_call v c))) (snd (script_call v c)) (serves v c).
Proof.
  intros (Ha & Hn & Hm) Hc.
  repeat match goal with H : Forall _ (_ :: _) |- _ => let K := fresh "K" in apply list.Forall_cons in H as [K H] end.
  unfold means.
  destruct c; try (exfalso; by apply Hc); cbn [script_call fst snd serves name parameters];
    (split; [reflexivity|]); (split; [|exact I]);
    unfold are; repeat first [apply List.Forall2_cons|apply List.Forall2_nil];
    match goal with
    | |- is_num _ _ => apply mx_is_num
    | |- is_addr _ _ => apply mx_is_addr; assumption
    | |- is_int 8 200 _ => apply mx_is_u64; lia
    | |- is_int 8 _ _ => apply mx_is_u64; assumption
    | |- is_bool _ _ => reflexivity
    | |- is_text _ => exact I
    | |- is_decimals _ => unfold is_decimals; cbn; lia
    end.
Qed.
Lemma commands_work v c : settings_fit v -> ~ misnamed c ->
  forall w caller ok, script_step v c caller ok w = step w (OTx caller (script_value c) (script_pays v c) (serves v c)).
Proof.
  intros Hv Hc w caller ok. unfold script_step, step_bytes. by rewrite (understands _ _ _ _ (commands_mean v c ok Hv Hc)).
Qed.
Lemma misnamed_refused v c : misnamed c ->
  forall w caller ok, script_step v c caller ok w = (set_log [] w, SErr EDecode).
Proof.
  intros Hc w caller ok. unfold script_step, step_bytes, decode_call. rewrite find_text.
  destruct c; try (exfalso; exact Hc); cbn [script_call fst snd endpoints List.find String.eqb Ascii.eqb Bool.eqb]; done.
Qed.
Lemma misnamed_means v c ok ep : misnamed c -> ~ means ok (text (fst (script_call v c))) (snd (script_call v c)) ep.
Proof. intros Hc H. apply means_name in H. destruct c; try exact Hc; destruct ep; discriminate H. Qed.

Lemma whitelist_pays v w caller ok : settings_fit v ->
  snd (script_step v CWhitelist caller ok w) <> SOk /\ fst (script_step v CWhitelist caller ok w) = set_log [] w.
Proof.
  intros Hv. rewrite commands_work; [|done|exact id]. cbn [script_value script_pays serves].
  set (ep := Whitelist _ _ _ _ _ _). assert (H : snd (step w (OTx caller 0 [] ep)) <> SOk).
  { intros Hs. subst ep. did_of w (OTx caller 0 [] (Whitelist (v_provider v) (v_admin v) (v_total v) (v_cap v) (v_nodes v) (v_apy v))) Hs.
    match goal with H : MIN_EGLD <= 0 |- _ => revert H end. vm_compute. auto. }
  split; [exact H|]. unfold step in *. destruct (exec_tx _ _ _ _ _) as [w'|e]; [by destruct H|done].
Qed.

Lemma misnamed_unanswered q s : misnamed_question q -> script_query q s = None.
Proof.
  intros Hq. destruct q; try (exfalso; exact Hq); cbn [script_query]; unfold query; rewrite find_text;
    cbn [views List.find fst String.eqb Ascii.eqb Bool.eqb]; done.
Qed.
Lemma questions_answered q s w : shows s w -> ~ misnamed_question q -> script_query q s = true_answer q w.
Proof.
  unfold shows. cbv zeta.
  intros (_ & _ & _ & _ & _ & _ & _ & _ & _ & _ & _ & _ & _ & _ & _ & _ & _ & _ & _ & _ & V21 & V22 & V23 & _) Hq.
  destruct q; try (exfalso; by apply Hq); cbn [script_query true_answer].
  - exact V21.
  - apply V23, mx_is_num.
  - apply V22, mx_is_num.
Qed.

Lemma deployed_by_script v owner epoch : settings_fit v ->
  deploy_bytes owner epoch (script_init v)
  = deploy owner (v_accumulator v) (v_fees v) (v_rounds v) (v_min_rounds v) (v_max_selected v) (v_max_addresses v)
      (v_unbond v) epoch.
Proof.
  intros (Ha & Hn & Hm).
  repeat match goal with H : Forall _ (_ :: _) |- _ => let K := fresh "K" in apply list.Forall_cons in H as [K H] end.
  unfold deploy_bytes, script_init.
  repeat match goal with K : ?k < 2 ^ 64 |- _ => apply mx_is_u64 in K; apply (arg_int_iff 8) in K end.
  apply mx_is_u32 in Hm. apply (arg_int_iff 4) in Hm.
  cbn [arg]. unfold mx_addr. rewrite get_addr_top by assumption. cbn [arg arg_big].
  repeat match goal with K : arg_int _ ?b = Some _ |- context [arg_int _ ?b] => rewrite K; cbn [arg arg_big] end.
  cbn [no_more]. by rewrite !num_value, !mx_value.
Qed.

(** ** What the script can bring about *)
Definition issues (k : call) : Prop := match k with KIssue _ _ _ => True | _ => False end.
Record Idle (w : world) : Prop := {
  i_pv : w_pv w = ∅; i_dl : w_dl w = []; i_ul : w_ul w = [];
  i_mgrs : c_mgrs (w_cfg w) = []; i_migr : c_migr (w_cfg w) = None; i_score : c_score (w_cfg w) = None;
  i_calls : Forall issues (w_calls w); i_res : Forall (fun x => issues (fst x)) (w_res w) }.
Definition scripted (o : op) : Prop :=
  match o with
  | OTx _ eg _ ep =>
      match ep with
      | Whitelist _ _ _ _ _ _ => eg = 0
      | RegisterLsToken | RegisterUnstakeToken | SetStateActive | ChangeParams _ _ _ _ _ _ | Delegate | UnDelegate
      | DelegatePending _ | UnDelegatePending _ | SetMinimumRounds _ | SetUnbondPeriod _ => True
      | _ => False
      end
  | _ => True
  end.
Lemma idle_did w o w' s : did w o w' s -> scripted o -> Idle w -> Idle w'.
Proof.
  intros D Ho [I1 I2 I3 I4 I5 I6 I7 I8].
  assert (R : forall i k r, nth_error (w_res w) i = Some (k, r) -> issues k).
  { intros i k r H. apply nth_error_In in H. rewrite List.Forall_forall in I8. exact (I8 _ H). }
  destruct D; cbn [scripted] in Ho; subst_pools; try (exfalso; exact Ho);
    try (match goal with H : nth_error (w_res _) _ = Some (_, _) |- _ => destruct (R _ _ _ H) end);
    try (by constructor).
  - um_clean. by constructor.
  - match goal with H : get_delegation_contract _ _ _ _ _ _ _ = _ |- _ => rewrite I2 in H; discriminate H end.
  - match goal with H : get_delegation_contract _ _ _ _ _ _ _ = _ |- _ => rewrite I3 in H; discriminate H end.
  - exfalso. subst. match goal with H : MIN_EGLD <= 0 |- _ => revert H end. vm_compute. auto.
  - exfalso. match goal with H : w_pv w !! _ = Some _ |- _ => rewrite I1, lookup_empty in H; discriminate H end.
  - constructor; try done. cbn. apply Forall_app. split; [exact I7|by repeat constructor].
  - constructor; try done. cbn. apply Forall_app. split; [exact I7|by repeat constructor].
  - destruct ep; try (exfalso; exact Ho); try (exfalso; assumption);
      try (match goal with H : f = _ /\ _ |- _ => destruct H as [H _] end); subst f; by constructor.
  - match goal with H : exec_call _ _ _ = Some _ |- _ => apply exec_call_frame in H as [? ->] end.
    constructor; try done; cbn.
    + by apply drop_forall.
    + apply Forall_app. split; [exact I8|]. repeat constructor. cbn.
      match goal with H : nth_error (w_calls _) _ = Some _ |- _ => apply nth_error_In in H end.
      rewrite List.Forall_forall in I7. by apply I7.
  - constructor; try done. cbn. by apply drop_forall.
  - constructor; try (destruct ls; done). cbn. by apply drop_forall.
  - constructor; try (destruct ls; done). cbn. by apply drop_forall.
  - constructor; try done. cbn. by apply drop_forall.
Qed.
Lemma idle_deployed w : Deployed w -> Idle w.
Proof. intros (o & a & f & r & m & s & x & u & e & H). apply deploy_inv in H as [_ ->].
  constructor; first [reflexivity|apply List.Forall_nil]. Qed.
Lemma idle_step w o : scripted o -> Idle w -> Idle (fst (step w o)).
Proof.
  intros Ho [I1 I2 I3 I4 I5 I6 I7 I8]. apply (idle_did (set_log [] w) o _ _ (step_did w o) Ho). by constructor.
Qed.
Lemma idle_doing w d : doing_ok d -> Idle w -> Idle (fst (doing_step w d)).
Proof.
  destruct d as [v c caller ok|o]; cbn [doing_ok doing_step]; intros Hd Hw.
  - destruct c; try (rewrite misnamed_refused by exact I; destruct Hw; by constructor);
      (rewrite commands_work; [|exact Hd|exact id]); (apply idle_step; [|exact Hw]); cbn; done.
  - apply idle_step; [|exact Hw]. by destruct o.
Qed.
Lemma idle_run ds : forall w, Forall doing_ok ds -> Idle w -> Idle (doing_run w ds).
Proof.
  induction ds as [|d ds IH]; intros w Hd Hw; [exact Hw|]. apply list.Forall_cons in Hd as [H1 H2].
  cbn [doing_run]. apply IH; [exact H2|by apply idle_doing].
Qed.
Lemma idle_refuses w : Idle w -> forall caller egld pays x,
  snd (step w (OTx caller egld pays (DelegatePending x))) <> SOk
  /\ snd (step w (OTx caller egld pays (UnDelegatePending x))) <> SOk.
Proof.
  intros [I1 I2 I3 _ _ _ _ _] caller egld pays x. split; intros Hs.
  - did_of w (OTx caller egld pays (DelegatePending x)) Hs.
    match goal with H : get_delegation_contract _ _ _ _ _ _ _ = _ |- _ =>
      change (w_dl (set_log [] w)) with (w_dl w) in H; rewrite I2 in H; discriminate H end.
  - did_of w (OTx caller egld pays (UnDelegatePending x)) Hs.
    match goal with H : get_delegation_contract _ _ _ _ _ _ _ = _ |- _ =>
      change (w_ul (set_log [] w)) with (w_ul w) in H; rewrite I3 in H; discriminate H end.
Qed.
Lemma script_idle w ds : Deployed w -> Forall doing_ok ds -> let v := doing_run w ds in
  (forall c, w_pv v !! c = None) /\ w_dl v = [] /\ w_ul v = []
  /\ c_mgrs (w_cfg v) = [] /\ c_migr (w_cfg v) = None /\ c_score (w_cfg v) = None
  /\ Forall (fun k => exists ls who a, k = KIssue ls who a) (unanswered v)
  /\ forall caller egld pays x,
       snd (step v (OTx caller egld pays (DelegatePending x))) <> SOk
       /\ snd (step v (OTx caller egld pays (UnDelegatePending x))) <> SOk.
Proof.
  intros Hw Hd v. assert (HI : Idle v) by (by apply idle_run, idle_deployed).
  pose proof (idle_refuses v HI) as Hr. clearbody v. destruct HI as [I1 I2 I3 I4 I5 I6 I7 I8].
  split; [intros c; by rewrite I1|]. repeat (split; [assumption|]). split; [|exact Hr].
  unfold unanswered. apply Forall_app. split.
  - eapply List.Forall_impl; [|exact I7]. intros k Hk. destruct k; try destruct Hk. by do 3 eexists.
  - apply List.Forall_map. eapply List.Forall_impl; [|exact I8]. intros [k r] Hk. cbn in *. destruct k; try destruct Hk. by do 3 eexists.
Qed.

(** ** The way to the first deposit *)
Lemma doing_as ds os : Forall2 (fun d o => forall w, doing_step w d = step w o) ds os ->
  forall w, doing_run w ds = run w os /\ doing_statuses w ds = statuses w os.
Proof.
  induction 1 as [|d o ds os E H IH]; intros w; [done|]. cbn [doing_run doing_statuses run statuses].
  rewrite E. destruct (IH (fst (step w o))) as [-> ->]. done.
Qed.
Lemma first_redeems u who : Reachable u -> c_active (w_cfg u) = true -> c_lstok (w_cfg u) = TIssued -> who <> SELF ->
  ls_balance who u = 100 * ONE_EGLD -> ls_supply u = 100 * ONE_EGLD -> virtual_reserve u = 100 * ONE_EGLD ->
  pending_egld u = 100 * ONE_EGLD ->
  let o := OTx who 0 [Pay TokLs 300000000000000000] UnDelegate in
  snd (step u o) = SOk
  /\ 10 * pending_egld (fst (step u o)) = 997 * ONE_EGLD /\ 10 * ls_supply (fst (step u o)) = 997 * ONE_EGLD.
Proof.
  intros Hr HA HL Hw Hb Hs Hv Hp o.
  assert (HE : egld_worth u 300000000000000000 = 300000000000000000)
    by (unfold egld_worth; rewrite Hs, Hv; vm_compute; reflexivity).
  assert (S : snd (step u o) = SOk).
  { apply (accepted_iff u who 0 _ UnDelegate Hr I). split; [exact Hw|]. eexists. split; [reflexivity|].
    rewrite HE, Hb, Hp. unfold placeable, closes, ONE_EGLD. repeat (split; [first [assumption|reflexivity|lia]|]).
    left; lia. }
  split; [exact S|]. subst o. did_of u (OTx who 0 [Pay TokLs 300000000000000000] UnDelegate) S.
  clear -Hs Hv Hp. unfold pending_egld, ls_supply, virtual_reserve in *.
  cbn [w_pool commit set_pool pend supply undelegate_pool] in *.
  change (w_pool (set_log [] u)) with (w_pool u).
  assert (E : redeemed 300000000000000000 (w_pool u) = 300000000000000000)
    by (unfold redeemed; rewrite Hs, Hv; vm_compute; reflexivity).
  unfold undelegate_pool. cbn [pend supply]. change c with (w_pool u). rewrite E, Hs, Hp. vm_compute. split; reflexivity.
Qed.
Lemma cfg_after_deposit w u eg : c_active (w_cfg w) = true -> c_lstok (w_cfg w) = TIssued ->
  let w' := fst (step w (OTx u eg [] Delegate)) in c_active (w_cfg w') = true /\ c_lstok (w_cfg w') = TIssued.
Proof.
  intros H1 H2. pose proof (step_did w (OTx u eg [] Delegate)) as D. set (w' := fst _) in *. clearbody w'.
  inversion D; subst; try contradiction; subst_pools; done.
Qed.
Lemma script_starts v w ok : settings_fit v -> Deployed w ->
  let ds := script_start v (w_owner w) ok in let u := doing_run w ds in
  Forall (eq SOk) (doing_statuses w ds)
  /\ c_active (w_cfg u) = true /\ c_lstok (w_cfg u) = TIssued /\ c_usttok (w_cfg u) = TIssued
  /\ forall who, who <> SELF ->
     let o := script_step v CDelegate who ok u in
     snd o = SOk /\ ls_balance who (fst o) = 100 * ONE_EGLD /\ pending_egld (fst o) = 100 * ONE_EGLD
     /\ (v_token v = TokLs -> let o' := script_step v CUnDelegate who ok (fst o) in
          snd o' = SOk /\ 10 * pending_egld (fst o') = 997 * ONE_EGLD /\ 10 * ls_supply (fst o') = 997 * ONE_EGLD).
Proof.
  intros Hv Hd ds u. subst u. pose proof (deployed_reach w Hd) as Hr.
  destruct Hd as (o & a & f & r & m & s & x & n & e & H). apply deploy_inv in H as [Ho ->].
  set (w := World _ _ _ _ _ _ _ _ _ _ _ _ _ _ _ _ _) in *.
  destruct (doing_as ds (go_live (w_owner w) 50000000000000000 50000000000000000 0 0)) with (w := w) as [E1 E2].
  { unfold ds, script_start, go_live, issue_ops. cbn [app].
    repeat (apply List.Forall2_cons; [intros y; cbn [doing_step]; try reflexivity; (rewrite commands_work; [reflexivity|exact Hv|exact id])|]).
    apply List.Forall2_nil. }
  rewrite E1, E2. destruct (first_deposit w 50000000000000000 50000000000000000 Hr Ho eq_refl eq_refl) as (S & A & B & C & _ & D).
  split; [exact S|]. split; [exact A|]. split; [exact B|]. split; [exact C|]. intros who Hwho.
  rewrite commands_work; [|exact Hv|exact id]. cbn [script_value script_pays serves].
  destruct (D who 100000000000000000000 Hwho ltac:(vm_compute; discriminate)) as (D1 & D2 & D3 & D4 & D5).
  split; [exact D1|]. split; [exact D2|]. split; [exact D5|]. intros Ht.
  rewrite commands_work; [|exact Hv|exact id]. cbn [script_value script_pays serves]. rewrite Ht.
  destruct (cfg_after_deposit _ who 100000000000000000000 A B) as [A' B'].
  apply (first_redeems _ who); try assumption. apply reach_step. by apply reach_run_.
Qed.

(** ** With the values of the script *)
(** The contract deployed by account 100 in epoch 5. *)
Definition w_devnet : world := match deploy_bytes 100 5 (script_init devnet) with Ok w => w | Er _ => World (Cfg false 0 0 0 0 0 0 0 None None [] TNotSet TNotSet) (Pool 0 0 0 0 0 0 0) [] [] ∅ ∅ 0 ∅ ∅ ∅ 0 0 0 [] [] ∅ [] end.
Lemma devnet_fit : settings_fit devnet.
Proof. split; [|split]; [| |reflexivity]; repeat (apply List.Forall_cons; [vm_compute; reflexivity|]); apply List.Forall_nil. Qed.
Lemma devnet_deployed : Deployed w_devnet.
Proof. do 9 eexists. rewrite <- (deployed_by_script devnet 100 5 devnet_fit). vm_compute. reflexivity. Qed.
Lemma commands_wrong : exists v w caller, settings_fit v /\ Reachable w /\
  forall c, misnamed c ->
    snd (step w (OTx caller (script_value c) (script_pays v c) (serves v c))) = SOk
    /\ forall ok, snd (script_step v c caller ok w) = SErr EDecode.
Proof.
  exists devnet, w_devnet, 100. split; [exact devnet_fit|]. split; [exact (deployed_reach _ devnet_deployed)|].
  intros c Hc. split; [destruct c; try (exfalso; exact Hc); vm_compute; reflexivity|].
  intros ok. by rewrite misnamed_refused.
Qed.
