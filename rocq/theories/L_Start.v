(** L_Start.v — deployment and the way to the first deposit. *)
From Verif Require Export Spec8 L_Tok L_Accept L_Reply L_More L_Worth.

(** * Deployment *)
Lemma deploy_ok owner acc fees rpe minr maxsel maxaddr unbond epoch :
  owner <> SELF -> rpe < 2 ^ 64 -> minr < 2 ^ 64 -> maxaddr < 2 ^ 32 -> unbond < 2 ^ 64 -> epoch < 2 ^ 64 ->
  (exists w, deploy owner acc fees rpe minr maxsel maxaddr unbond epoch = Ok w) <-> 1 <= maxsel /\ 1 <= maxaddr.
Proof.
  intros Ho H1 H2 H3 H4 H5. unfold deploy, init.
  change (2 ^ 64) with U64 in *. change (2 ^ 32) with U32 in *.
  replace ((rpe <? U64) && (minr <? U64) && (maxaddr <? U32) && (unbond <? U64) && (epoch <? U64) && negb (owner =? SELF)) with true
    by (symmetry; rewrite !andb_true_iff, negb_true_iff, N.eqb_neq; repeat split; try apply N.ltb_lt; done).
  cbn. destruct (N.leb_spec 1 maxsel); cbn; [|split; [intros [? ?]; discriminate|lia]].
  destruct (N.leb_spec 1 maxaddr); cbn; [|split; [intros [? ?]; discriminate|lia]].
  split; [done|]. eauto.
Qed.

Lemma deploy_inv owner acc fees rpe minr maxsel maxaddr unbond epoch w :
  deploy owner acc fees rpe minr maxsel maxaddr unbond epoch = Ok w ->
  owner <> SELF
  /\ w = World (Cfg false fees acc rpe minr maxaddr maxsel unbond None None [] TNotSet TNotSet)
           (Pool 0 0 0 0 0 0 0) [] [] ∅ ∅ 0 ∅ ∅ ∅ 0 epoch owner [] [] ∅ [].
Proof.
  unfold deploy, init. intros H. apply rbind_ok in H as [[] [E1 H]]. rstep E1.
  apply rbind_ok in H as [g [E2 H]]. apply rbind_ok in E2 as [[] [E3 E2]]. rstep E3.
  apply rbind_ok in E2 as [[] [E4 E2]]. rstep E4. injection E2 as <-. injection H as <-.
  rewrite !andb_true_iff, negb_true_iff, N.eqb_neq in *. intuition.
Qed.

Lemma deployed_state owner acc fees rpe minr maxsel maxaddr unbond epoch w :
  deploy owner acc fees rpe minr maxsel maxaddr unbond epoch = Ok w ->
  let g := w_cfg w in
  w_owner w = owner /\ c_acc g = acc /\ c_fees g = fees /\ c_rpe g = rpe /\ c_minr g = minr
  /\ c_maxsel g = maxsel /\ c_maxaddr g = maxaddr /\ c_unbond g = unbond /\ w_epoch w = epoch
  /\ c_active g = false /\ c_mgrs g = [] /\ c_migr g = None /\ c_score g = None
  /\ c_lstok g = TNotSet /\ c_usttok g = TNotSet
  /\ contract_egld w = 0 /\ (forall c, w_pv w !! c = None) /\ unanswered w = [].
Proof. intros H. apply deploy_inv in H as [_ ->]. cbn. repeat split. Qed.

(** * Before the LS token is issued *)
Record Dark (w : world) : Prop := {
  k_pool : w_pool w = Pool 0 0 0 0 0 0 0;
  k_dl : w_dl w = []; k_ul : w_ul w = [];
  k_ls : forall u, amt_at (w_ls w) u = 0;
  k_ust : forall k, amt_at (w_ust w) k = 0 }.

Lemma dark_did w o w' s :
  Tok w -> did w o w' s -> (c_lstok (w_cfg w) <> TIssued -> Dark w) -> c_lstok (w_cfg w') <> TIssued -> Dark w'.
Proof.
  intros T D I Hn.
  assert (Hw : c_lstok (w_cfg w) <> TIssued) by (intros HI; exact (Hn (ls_final_did w o w' s T D HI))).
  specialize (I Hw). destruct I as [I1 I2 I3 I4 I5].
  destruct D; subst_pools; try (exfalso; by apply Hw); try (by constructor).
  all: try (match goal with H : exec_call _ _ _ = Some _ |- _ => apply exec_call_frame in H as [? ->] end; by constructor).
  - constructor; try done. intros v. cbn. rewrite amt_credit, amt_insert. unfold lbal in *.
    rewrite !I4 in *. repeat case_decide; lia.
  - constructor; try done. intros v. cbn. rewrite amt_credit, amt_insert. unfold ubal in *.
    rewrite !I5 in *. repeat case_decide; lia.
Qed.

Lemma dark w : Reachable w -> c_lstok (w_cfg w) <> TIssued -> Dark w.
Proof.
  induction 1 as [owner acc fees rpe minr maxsel maxaddr unbond epoch w H|w o Hr IH].
  - intros _. apply deploy_inv in H as [_ ->]. by constructor.
  - apply (dark_did (set_log [] w) o _ _ (tok w Hr) (step_did w o)). intros H. destruct (IH H). by constructor.
Qed.

Lemma nothing_before w :
  Reachable w -> c_lstok (w_cfg w) <> TIssued ->
  ls_supply w = 0 /\ virtual_reserve w = 0 /\ pending_egld w = 0 /\ unstake_queue w = 0 /\ unbonding w = 0
  /\ total_withdrawn w = 0 /\ fees_reserve w = 0
  /\ w_dl w = [] /\ w_ul w = [] /\ (forall u, ls_balance u w = 0) /\ (forall n u, ust_of n u w = 0).
Proof.
  intros Hr Hn. destruct (dark w Hr Hn) as [H1 H2 H3 H4 H5].
  unfold ls_supply, virtual_reserve, pending_egld, unstake_queue, unbonding, total_withdrawn, fees_reserve.
  rewrite H1. cbn. repeat split; try done. intros n u. apply H5.
Qed.

(** * The owner brings a contract to life *)
Lemma drop_nth_end {A} (l : list A) x : drop_nth (length l) (l ++ [x]) = l.
Proof. induction l as [|y l IH]; [done|]. exact (f_equal (cons y) IH). Qed.
Lemma nth_error_end {A} (l : list A) x : nth_error (l ++ [x]) (length l) = Some x.
Proof. induction l as [|y l IH]; [done|]. exact IH. Qed.

Lemma issue_whole w u a (ls : bool) :
  u <> SELF -> u = w_owner w -> (if ls then c_lstok (w_cfg w) else c_usttok (w_cfg w)) = TNotSet ->
  let os := issue_ops (if ls then RegisterLsToken else RegisterUnstakeToken) u a (length (w_calls w)) (length (w_res w)) in
  statuses w os = [SOk; SOk; SOk]
  /\ run w os = set_log [] (set_cfg (issue_cfg ls true (w_cfg w)) w).
Proof.
  intros Hu Ho Ht os.
  pose proof (register_available w u a ls Hu Ho Ht) as S1.
  set (o1 := OTx u a [] (if ls then RegisterLsToken else RegisterUnstakeToken)) in *.
  assert (E1 : exists w1, fst (step w o1) = w1 /\ w1 = emit (XCall (KIssue ls u a)) (set_calls (w_calls w ++ [KIssue ls u a])
     (set_cfg (if ls then set_c_lstok TPending (w_cfg w) else set_c_usttok TPending (w_cfg w)) (set_log [] w)))).
  { eexists. split; [reflexivity|]. subst o1. destruct ls.
    - did_of w (OTx u a [] RegisterLsToken) S1; done.
    - did_of w (OTx u a [] RegisterUnstakeToken) S1; done. }
  destruct E1 as (w1 & E1 & Ew1).
  assert (E2 : step w1 (OExec (length (w_calls w)) (Some 0)) =
     (set_log [] (set_res (w_res w ++ [(KIssue ls u a, RDone 0)]) (set_calls (w_calls w) w1)), SOk)).
  { assert (Hn : nth_error (w_calls w1) (length (w_calls w)) = Some (KIssue ls u a)) by (rewrite Ew1; apply nth_error_end).
    assert (Hd : drop_nth (length (w_calls w)) (w_calls w1) = w_calls w) by (rewrite Ew1; apply drop_nth_end).
    unfold step. change (w_calls (set_log [] w1)) with (w_calls w1). rewrite Hn. unfold exec_call.
    change (w_calls (set_log [] w1)) with (w_calls w1). rewrite Hd. rewrite Ew1. reflexivity. }
  set (w2 := set_log [] _) in E2.
  assert (E3 : step w2 (OCb (length (w_res w))) = (set_log [] (set_cfg (issue_cfg ls true (w_cfg w)) w), SOk)).
  { assert (Hn : nth_error (w_res w2) (length (w_res w)) = Some (KIssue ls u a, RDone 0)) by (subst w2; apply nth_error_end).
    assert (Hd : drop_nth (length (w_res w)) (w_res w2) = w_res w) by (subst w2; apply drop_nth_end).
    unfold step. change (w_res (set_log [] w2)) with (w_res w2). rewrite Hn, Hd.
    subst w2. rewrite Ew1. cbn -[N.add]. unfold issue_callback. cbn -[N.add].
    rewrite N.add_0_r. by destruct w as [[] ? ? ? ? ? ? ? ? ? ? ? ? ? ? ? ?], ls. }
  subst os. unfold issue_ops. fold o1. cbn [statuses run]. rewrite S1, E1, E2. cbn [fst snd]. rewrite E3. done.
Qed.

Lemma statuses_app w os os' : statuses w (os ++ os') = statuses w os ++ statuses (run w os) os'.
Proof. revert w. induction os as [|o os IH]; intros w; [done|]. cbn. by rewrite IH. Qed.
Lemma run_app_ w os os' : run w (os ++ os') = run (run w os) os'.
Proof. revert w. induction os as [|o os IH]; intros w; [done|]. cbn. by rewrite IH. Qed.

Lemma goes_live w a b :
  Reachable w -> w_owner w <> SELF -> c_lstok (w_cfg w) = TNotSet -> c_usttok (w_cfg w) = TNotSet ->
  let os := go_live (w_owner w) a b (length (w_calls w)) (length (w_res w)) in
  let v := run w os in
  Forall (eq SOk) (statuses w os)
  /\ v = set_log [] (set_cfg (set_c_active true (issue_cfg false true (issue_cfg true true (w_cfg w)))) w).
Proof.
  intros Hr Ho H1 H2 os v. subst v os. unfold go_live.
  destruct (issue_whole w (w_owner w) a true Ho eq_refl H1) as [S1 R1].
  rewrite !statuses_app, !run_app_, R1, S1.
  set (w1 := set_log [] (set_cfg _ w)).
  assert (H2' : c_usttok (w_cfg w1) = TNotSet) by (subst w1; cbn; unfold issue_cfg; by destruct (w_cfg w)).
  destruct (issue_whole w1 (w_owner w) b false Ho eq_refl H2') as [S2 R2].
  change (w_calls w) with (w_calls w1). change (w_res w) with (w_res w1).
  rewrite S2, R2. cbn [statuses run].
  assert (E : forall y, w_owner y <> SELF -> step y (OTx (w_owner y) 0 [] SetStateActive) = (set_log [] (set_cfg (set_c_active true (w_cfg y)) y), SOk)).
  { intros y Hy. unfold step, exec_tx. assert (E0 : (w_owner y =? SELF) = false) by lia. rewrite E0. cbn.
    unfold set_state, owner_set, only_owner. cbn. rewrite N.eqb_refl. cbn. rewrite N.add_0_r. by destruct y. }
  set (y := set_log [] (set_cfg _ w1)). change (w_owner w) with (w_owner y) in *. rewrite E by done. cbn [fst snd].
  split; [repeat constructor|]. subst y w1. reflexivity.
Qed.

Lemma first_deposit w a b :
  Reachable w -> w_owner w <> SELF -> c_lstok (w_cfg w) = TNotSet -> c_usttok (w_cfg w) = TNotSet ->
  let os := go_live (w_owner w) a b (length (w_calls w)) (length (w_res w)) in
  let v := run w os in
  Forall (eq SOk) (statuses w os)
  /\ c_active (w_cfg v) = true /\ c_lstok (w_cfg v) = TIssued /\ c_usttok (w_cfg v) = TIssued
  /\ contract_egld v = contract_egld w
  /\ forall u eg, u <> SELF -> ONE_EGLD <= eg ->
     let o := OTx u eg [] Delegate in let v' := fst (step v o) in
     snd (step v o) = SOk /\ ls_balance u v' = eg /\ ls_supply v' = eg /\ virtual_reserve v' = eg /\ pending_egld v' = eg.
Proof.
  intros Hr Ho H1 H2 os v. destruct (goes_live w a b Hr Ho H1 H2) as [HS Hv]. fold os v in HS, Hv.
  destruct (dark w Hr ltac:(congruence)) as [K1 K2 K3 K4 K5].
  split; [done|]. assert (HA : c_active (w_cfg v) = true /\ c_lstok (w_cfg v) = TIssued /\ c_usttok (w_cfg v) = TIssued)
    by (rewrite Hv; cbn; unfold issue_cfg; by destruct (w_cfg w)).
  destruct HA as (A1 & A2 & A3). do 3 (split; [done|]). split; [by rewrite Hv|].
  intros u eg Hu He. assert (HP : w_pool v = Pool 0 0 0 0 0 0 0) by (rewrite Hv; exact K1).
  assert (HL : ls_worth v eg = eg) by (unfold ls_worth, virtual_reserve; by rewrite HP).
  assert (0 < eg) by (unfold ONE_EGLD in He; lia).
  destruct (delegate_worth v u eg A1 A2 Hu He ltac:(lia)) as (D1 & D2 & D3 & D4 & _ & (i & r & D5 & D6 & _ & D7) & _).
  specialize (D2 u). rewrite N.eqb_refl, HL in D2. rewrite HL in D3.
  assert (HB : ls_balance u v = 0) by (rewrite Hv; exact (K4 u)).
  assert (Z1 : ls_supply v = 0) by (unfold ls_supply; by rewrite HP).
  assert (Z2 : virtual_reserve v = 0) by (unfold virtual_reserve; by rewrite HP).
  assert (Z3 : pending_egld v = 0) by (unfold pending_egld; by rewrite HP).
  assert (Z4 : unstake_queue v = 0) by (unfold unstake_queue; by rewrite HP).
  rewrite HB in D2. rewrite Z1 in D3. rewrite Z2 in D4. rewrite Z3 in D6. rewrite Z4 in D7.
  assert (i = 0) by (clear -D7; lia). subst i. cbn zeta. split; [done|].
  rewrite D2, D3, D4, D6. clear -D5. lia.
Qed.
