(** L_Mnet4.v — everybody leaves, with the mocks doing the providers' part. *)
From Verif Require Import L_Acct L_Books L_Order L_Flow L_Lists L_Frame L_Donate L_Batch L_Exit L_Settle L_Leave L_More.
From Verif Require Export L_Mnet3.

(** As in L_Leave.v, but only some providers are collected from: those that have something. *)
Lemma collected_from w0 os m e cs :
  Deployed w0 -> along orderly w0 os ->
  let w := run w0 os in
  quiet w -> operator m w -> w_epoch w + e < 2 ^ 64 ->
  NoDup cs -> (forall c, c ∈ cs -> c ∈ w_dl w) -> (forall c, c ∈ w_dl w -> c ∉ cs -> snd (live_of w c) = 0) ->
  let ops := OEpoch e :: flat_map (fun c => collect1 m c (snd (live_of w c))) cs in let v := run w ops in
  Forall (eq SOk) (statuses w ops) /\ Reachable v /\ w_cfg v = w_cfg w /\ w_epoch v = w_epoch w + e
  /\ w_attr v = w_attr w /\ w_ust v = w_ust w
  /\ virtual_reserve v = virtual_reserve w /\ ls_supply v = ls_supply w /\ unstake_queue v = unstake_queue w
  /\ pending_unstaking_total v = 0 /\ unbonding v = 0.
Proof.
  intros Hd Ho w Hq Hop He Hnd Hsub Hrest. cbn zeta.
  assert (Hr : Reachable w) by (apply reach_run_, deployed_reach, Hd).
  change (2 ^ 64) with U64 in He.
  assert (S0 : step w (OEpoch e) = (set_epoch (w_epoch w + e) (set_log [] w), SOk)).
  { unfold step. cbn [w_epoch set_log]. by replace (w_epoch w + e <? U64) with true by lia. }
  cbn [statuses run]. rewrite S0. cbn [fst snd].
  set (w1 := set_epoch (w_epoch w + e) (set_log [] w)).
  assert (Hr1 : Reachable w1) by (pose proof (reach_step w (OEpoch e) Hr) as K; rewrite S0 in K; exact K).
  destruct (list_views w1 Hr1) as (_ & _ & _ & Hlr).
  destruct (collect_list cs m (fun c => snd (live_of w c)) w1 Hnd Hr1 Hq Hop) as (S2 & K2 & P2).
  { intros c Hc1. split; [done|]. destruct (Hlr c (Hsub c Hc1)) as [p Hp]. exists p. split; [done|].
    destruct (quiet_books w0 os c p Hd Ho Hq Hp) as (_ & _ & E). fold w in E. change (live_of w1 c) with (live_of w c). by rewrite E. }
  set (w2 := run w1 (flat_map (fun c => collect1 m c (snd (live_of w c))) cs)) in *.
  assert (Hr2 : Reachable w2) by (by apply reach_run_).
  destruct K2 as (C1 & C2 & C3 & C4 & C5 & C6 & (C7 & C8 & C9 & C10) & C11 & C12).
  assert (Hpv : forall c p, w_pv w2 !! c = Some p -> p_pun p = 0 /\ p_unstaked p = 0).
  { intros c p Hp. rewrite P2 in Hp. change (w_pv w1) with (w_pv w) in Hp.
    destruct (w_pv w !! c) as [q|] eqn:Eq; [|done]. destruct (quiet_books w0 os c q Hd Ho Hq Eq) as (_ & E1 & E2). fold w in E2.
    case_bool_decide as Hin; injection Hp as <-; [done|]. split; [done|]. cbn.
    destruct (decide (c ∈ w_dl w)) as [Hl|Hl].
    - specialize (Hrest c Hl Hin). by rewrite E2 in Hrest.
    - pose proof (l_unlisted _ _ _ _ (lists w Hr) c q Eq Hl) as Hfr. by apply Hfr. }
  assert (Z1 : pending_unstaking_total w2 = 0).
  { unfold pending_unstaking_total. apply gsum_zeros. intros c p Hp. by apply (Hpv c). }
  assert (Z2 : unbonding w2 = 0).
  { rewrite (unbonding_is_sum w2 Hr2). unfold unstaked_total. apply gsum_zeros. intros c p Hp. by apply (Hpv c). }
  split_and!; try done; try (constructor; done); try (unfold virtual_reserve, ls_supply, unstake_queue; by rewrite C12).
Qed.

Lemma all_leave_from w0 os m d a e l cs :
  Deployed w0 -> along orderly w0 os ->
  let w := run w0 os in
  quiet w -> operator m w -> c_usttok (w_cfg w) = TIssued -> d <> SELF ->
  unstake_queue w + ONE_EGLD <= a -> 0 < ls_worth w a -> w_epoch w + e < 2 ^ 64 ->
  NoDup cs -> (forall c, c ∈ cs -> c ∈ w_dl w) -> (forall c, c ∈ w_dl w -> c ∉ cs -> snd (live_of w c) = 0) ->
  Forall (fun x => fst x <> SELF /\ all_due w (w_epoch w + e) (snd x)) l ->
  (forall n u, brought n u l <= ust_of n u w) ->
  let first := (OEpoch e :: flat_map (fun c => collect1 m c (snd (live_of w c))) cs) ++ [OTx d a [] Delegate] in
  Forall (eq SOk) (statuses w (first ++ cash_out l))
  /\ payments (run w first) l = map (fun x => pay_total (snd x)) l.
Proof.
  intros Hd Ho w Hq Hop Hut Hdd Ha Hls He Hnd Hsub Hrest HF Hb first.
  destruct (collected_from w0 os m e cs Hd Ho Hq Hop He Hnd Hsub Hrest) as (S1 & Hr2 & C1 & C4 & C9 & C8 & V1 & V2 & V3 & Z1 & Z2).
  fold w in S1, Hr2, C1, C4, C9, C8, V1, V2, V3, Z1, Z2.
  set (w2 := run w (OEpoch e :: flat_map (fun c => collect1 m c (snd (live_of w c))) cs)) in *.
  assert (Hw2 : ls_worth w2 a = ls_worth w a) by (unfold ls_worth; by rewrite V1, V2).
  destruct Hop as (Hm & Hm2 & Hlt & Hact).
  pose proof (delegate_worth w2 d a) as HD. cbn zeta in HD.
  destruct HD as (S3 & _ & _ & _ & _ & _ & _ & U3 & R3 & T3 & _);
    [by rewrite C1|by rewrite C1|done|lia|by rewrite Hw2|].
  destruct (delegate_split w2 d a [] S3) as (i & r & I1 & I2 & I3 & I4 & _ & _ & I5).
  change MIN_EGLD with ONE_EGLD in I5. specialize (I5 (unstake_queue w2) (a - unstake_queue w2) ltac:(lia) ltac:(lia) ltac:(lia) ltac:(lia)).
  set (w3 := fst (step w2 (OTx d a [] Delegate))) in *.
  assert (Hr3 : Reachable w3) by (by constructor).
  destruct R3 as (R31 & R32 & R33 & R34 & R35 & R36 & R37 & R38 & R39). destruct T3 as (T31 & T32 & T33 & T34).
  assert (E3 : run w first = w3) by (unfold first; rewrite run_app; done).
  destruct (drained_cash_out l w3) as [D1 D2]; try done.
  - lia.
  - unfold pending_unstaking_total in *. by rewrite R34.
  - lia.
  - by rewrite R31, C1.
  - by rewrite R31, C1.
  - by rewrite R31, C1.
  - eapply (claims_later w); [congruence|reflexivity|]. rewrite R35, C4. exact HF.
  - intros n u. unfold ust_of. rewrite T32, C8. apply Hb.
  - rewrite statuses_app, E3. split; [|exact D2]. apply list.Forall_app. split; [|exact D1].
    unfold first. rewrite statuses_app. apply list.Forall_app. split; [exact S1|]. fold w2. cbn [statuses].
    rewrite S3. repeat constructor.
Qed.

(** * Collecting in the network *)
Definition ncollect1 (m c : addr) : list nact := [NDo (OTx m 0 [] (WithdrawPending c)); NExec 0 true; NDo (OCb 0)].

Lemma ncollect_filter m n :
  ncollect m n = flat_map (ncollect1 m) (List.filter (fun c => 0 <? snd (kept_at n c)) (w_dl (n_w n))).
Proof.
  unfold ncollect. induction (w_dl (n_w n)) as [|c l IH]; [done|]. cbn [flat_map List.filter].
  destruct (0 <? snd (kept_at n c)); [|exact IH]. cbn [flat_map]. by rewrite IH.
Qed.

Lemma nstatuses_shown n xs : Forall shown xs -> nstatuses n xs = statuses (n_w n) (ops_of n xs).
Proof.
  revert n. induction xs as [|x xs IH]; intros n H; [done|]. inversion H; subst. cbn [nstatuses ops_of statuses].
  rewrite as_op_status by done. rewrite <- as_op_step. by rewrite IH.
Qed.

(** what is due at a mock *)
Definition payable (n : net) (c : addr) : Prop :=
  exists mk mk', n_mocks n !! c = Some mk /\ mock_withdraw (w_epoch (n_w n)) mk = Ok (mk', m_und mk).

Lemma ncollect_one n m c :
  Match n -> quiet (n_w n) -> operator m (n_w n) -> is_Some (w_pv (n_w n) !! c) -> payable n c ->
  ops_of n (ncollect1 m c) = collect1 m c (snd (live_of (n_w n) c))
  /\ exists mk', n_mocks (nrun n (ncollect1 m c)) = <[c := mk']> (n_mocks n).
Proof.
  intros HM [Hc Hq] Hop Hp (mk & mk' & Hmk & Hw). set (w := n_w n) in *.
  pose proof (withdraw_pending_available w m c Hop Hp) as S1.
  destruct (withdraw_pending_done w m 0 [] c S1) as (_ & _ & N1). unfold only_new_call in N1. rewrite Hc in N1. cbn [app] in N1.
  unfold ncollect1, collect1. cbn [ops_of nrun as_op].
  assert (E1 : fst (nstep n (NDo (OTx m 0 [] (WithdrawPending c)))) = Net (fst (step w (OTx m 0 [] (WithdrawPending c)))) (n_mocks n) (n_mgr n)).
  { cbn [nstep]. fold w. by destruct (step w _). }
  rewrite E1. set (w1 := fst (step w (OTx m 0 [] (WithdrawPending c)))) in *. cbn [n_w n_mocks n_mgr].
  assert (Ec : nth_error (w_calls w1) 0 = Some (KWithd c)) by (by rewrite N1).
  assert (Ee : w_epoch w1 = w_epoch w) by (by rewrite N1).
  assert (Ed : at_destination (w_epoch w1) true (KWithd c) (n_mocks n) (n_mgr n) = (Some (m_und mk), <[c := mk']> (n_mocks n), n_mgr n)).
  { cbn [at_destination]. rewrite Hmk, Ee, Hw. done. }
  assert (El : snd (live_of w c) = m_und mk) by (unfold w; rewrite HM; unfold kept_at; by rewrite Hmk).
  rewrite Ec, Ed. cbn [fst]. rewrite El. split; [done|]. exists mk'.
  assert (E2 : n_mocks (fst (nstep (Net w1 (n_mocks n) (n_mgr n)) (NExec 0 true))) = <[c := mk']> (n_mocks n)).
  { cbn [nstep n_w n_mocks n_mgr]. rewrite Ec, Ed. by destruct (step w1 _). }
  set (n2 := fst (nstep (Net w1 (n_mocks n) (n_mgr n)) (NExec 0 true))) in *. cbn [nstep]. by destruct (step (n_w n2) _).
Qed.

Lemma ncollect_list cs n m :
  NoDup cs -> Match n -> Reachable (n_w n) -> quiet (n_w n) -> operator m (n_w n) ->
  (forall c, c ∈ cs -> payable n c /\ exists p, w_pv (n_w n) !! c = Some p /\ p_unstaked p = snd (live_of (n_w n) c)) ->
  ops_of n (flat_map (ncollect1 m) cs) = flat_map (fun c => collect1 m c (snd (live_of (n_w n) c))) cs.
Proof.
  revert n. induction cs as [|c cs IH]; intros n Hnd HM Hr Hq Hop HF; [done|].
  apply list.NoDup_cons in Hnd as [Hni Hnd]. destruct (HF c) as (Hpay & p & Hp & Hu); [set_solver|].
  destruct (ncollect_one n m c HM Hq Hop ltac:(by eexists) Hpay) as [E1 [mk' E2]].
  destruct (collect_one (n_w n) m c p Hr Hq Hop Hp Hu) as (S1 & K1 & P1 & L1).
  assert (Ew : n_w (nrun n (ncollect1 m c)) = run (n_w n) (collect1 m c (snd (live_of (n_w n) c)))) by (by rewrite nrun_world, E1).
  cbn [flat_map]. rewrite ops_of_app, E1. f_equal. set (n1 := nrun n (ncollect1 m c)) in *.
  rewrite IH; try done.
  - assert (HG : forall l, Forall (fun d => d <> c) l ->
      flat_map (fun d => collect1 m d (snd (live_of (n_w n1) d))) l = flat_map (fun d => collect1 m d (snd (live_of (n_w n) d))) l).
    { induction 1 as [|d l Hd _ IHl]; [done|]. cbn [flat_map]. rewrite IHl, Ew, L1 by done. done. }
    apply HG. apply List.Forall_forall. intros d Hd ->. apply Hni. by apply elem_of_list_In.
  - by apply match_run.
  - rewrite Ew. by apply reach_run_.
  - rewrite Ew. by apply K1.
  - rewrite Ew. by apply (operator_kept m (n_w n)).
  - intros d Hd. assert (d <> c) by congruence. destruct (HF d) as ((x & x' & Hx & Hx') & q & Hq1 & Hq2); [set_solver|]. split.
    + exists x, x'. rewrite E2, lookup_insert_ne by done. split; [done|]. rewrite Ew. destruct K1 as (_ & _ & _ & -> & _). done.
    + exists q. rewrite Ew, P1, L1, lookup_insert_ne by done. done.
Qed.

Lemma shown_collect m cs : Forall shown (flat_map (ncollect1 m) cs).
Proof. induction cs as [|c cs IH]; [constructor|]. cbn [flat_map]. apply list.Forall_app. split; [by repeat constructor|done]. Qed.

Lemma ops_of_do n os :
  Forall (fun o => match o with OExec _ _ | OProvider _ _ _ => False | _ => True end) os -> ops_of n (map NDo os) = os.
Proof.
  revert n. induction os as [|o os IH]; intros n H; [done|]. inversion H; subst. cbn [map ops_of]. rewrite IH by done.
  f_equal. by destruct o.
Qed.

Lemma all_leave_net n0 xs m d a e l :
  Start n0 -> nalong norderly n0 xs ->
  let n := nrun n0 xs in let w := n_w n in
  quiet w -> solvent n -> operator m w -> c_usttok (w_cfg w) = TIssued -> d <> SELF ->
  unstake_queue w + ONE_EGLD <= a -> 0 < ls_worth w a -> 10 <= e -> w_epoch w + e + 10 < 2 ^ 64 ->
  Forall (fun x => fst x <> SELF /\ all_due w (w_epoch w + e) (snd x)) l ->
  (forall k u, brought k u l <= ust_of k u w) ->
  let first := NDo (OEpoch e) :: ncollect m n ++ [NDo (OTx d a [] Delegate)] in
  Forall (eq SOk) (nstatuses n (first ++ map NDo (cash_out l)))
  /\ payments (n_w (nrun n first)) l = map (fun x => pay_total (snd x)) l.
Proof.
  intros Hs Ho n w Hq Hsol Hop Hut Hd Ha Hls He1 He2 HF Hb first.
  assert (HM : Match n) by (apply match_run; by apply start_match).
  assert (HK : Mocks n) by (apply mocks_run; by apply start_mocks).
  assert (Hr : Reachable w) by (by apply net_reach).
  assert (Hdep : Deployed (n_w n0)) by apply Hs.
  assert (Hord : along orderly (n_w n0) (ops_of n0 xs)) by (by apply norderly_ops).
  assert (Ew : w = run (n_w n0) (ops_of n0 xs)) by apply nrun_world.
  set (cs := List.filter (fun c => 0 <? snd (kept_at n c)) (w_dl w)).
  destruct (list_views w Hr) as (Hnd & _ & _ & Hlr).
  assert (Hcs : forall c, c ∈ cs -> c ∈ w_dl w /\ 0 < snd (kept_at n c)).
  { intros c Hc. apply elem_of_list_In, filter_In in Hc as [Hc1 Hc2]. split; [by apply elem_of_list_In|]. by apply N.ltb_lt in Hc2. }
  assert (Hnd' : NoDup cs) by (apply NoDup_ListNoDup; apply List.NoDup_filter; by apply NoDup_ListNoDup).
  assert (Hrest : forall c, c ∈ w_dl w -> c ∉ cs -> snd (live_of w c) = 0).
  { intros c Hc Hn. unfold w. rewrite HM. destruct (0 <? snd (kept_at n c)) eqn:B; [|lia]. exfalso. apply Hn.
    apply elem_of_list_In, filter_In. split; [by apply elem_of_list_In|done]. }
  pose proof (all_leave_from (n_w n0) (ops_of n0 xs) m d a e l cs Hdep Hord) as HL. cbn zeta in HL. rewrite <- Ew in HL.
  specialize (HL Hq Hop Hut Hd Ha Hls ltac:(lia) Hnd' (fun c Hc => proj1 (Hcs c Hc)) Hrest HF Hb).
  (* the first step and the collection *)
  assert (S0 : step w (OEpoch e) = (set_epoch (w_epoch w + e) (set_log [] w), SOk)).
  { unfold step. cbn [w_epoch set_log]. change (2 ^ 64) with U64 in He2. by replace (w_epoch w + e <? U64) with true by lia. }
  set (w1 := set_epoch (w_epoch w + e) (set_log [] w)) in *.
  assert (E1 : fst (nstep n (NDo (OEpoch e))) = Net w1 (n_mocks n) (n_mgr n)).
  { cbn [nstep]. fold w. by rewrite S0. }
  assert (HC : ops_of (Net w1 (n_mocks n) (n_mgr n)) (ncollect m n) = flat_map (fun c => collect1 m c (snd (live_of w c))) cs).
  { rewrite ncollect_filter. fold w cs.
    rewrite (ncollect_list cs (Net w1 (n_mocks n) (n_mgr n)) m); try done.
    - pose proof (reach_step w (OEpoch e) Hr) as K. by rewrite S0 in K.
    - intros c Hc. destruct (Hcs c Hc) as [Hc1 Hc2]. split.
      + unfold kept_at in Hc2. destruct (n_mocks n !! c) as [mk|] eqn:Emk; [|cbn in Hc2; lia]. cbn in Hc2.
        assert (Hok : mock_ok (w_epoch w + e) mk) by (apply (mock_ok_later (w_epoch w)); [lia|by apply (HK c)]).
        destruct (HK c mk Emk) as [_ Hue]. destruct (Hue Hc2) as (x & Hx & Hx2).
        assert (Hub : m_uepoch mk <= w_epoch w + e).
        { rewrite Hx2. unfold add64. change U64 with (2 ^ 64). fold w in Hx. rewrite N.mod_small; unfold MOCK_UNBOND_PERIOD; lia. }
        apply (mock_withdraw_iff _ mk Hok) in He2 as HI. destruct HI as [HI _].
        destruct HI as [mk' Hmk']; [split_and!; try done; by apply (Hsol c)|]. exists mk, mk'. by split.
      + destruct (Hlr c Hc1) as [p Hp]. exists p. split; [exact Hp|].
        pose proof (quiet_books (n_w n0) (ops_of n0 xs) c p Hdep Hord) as Q. cbn zeta in Q. rewrite <- Ew in Q.
        destruct (Q Hq Hp) as (_ & _ & E). cbn [n_w]. change (live_of w1 c) with (live_of w c). by rewrite E. }
  assert (Hshow : Forall shown (first ++ map NDo (cash_out l))).
  { unfold first. apply list.Forall_app. split.
    - constructor; [done|]. apply list.Forall_app. split; [rewrite ncollect_filter; apply shown_collect|by repeat constructor].
    - apply List.Forall_map, List.Forall_map. by apply List.Forall_forall. }
  assert (Hops : ops_of n first = (OEpoch e :: flat_map (fun c => collect1 m c (snd (live_of w c))) cs) ++ [OTx d a [] Delegate]).
  { unfold first. cbn [ops_of as_op app]. rewrite E1, ops_of_app, HC. done. }
  rewrite nstatuses_shown by done. rewrite ops_of_app, Hops, nrun_world, Hops. fold w.
  rewrite ops_of_do; [exact HL|]. unfold cash_out. apply List.Forall_map. by apply List.Forall_forall.
Qed.

(** * From anywhere *)
Fixpoint answers_of (n : net) (k : nat) : list (option N) :=
  match k with
  | O => []
  | S j => (match nth_error (w_calls (n_w n)) 0 with
            | Some q => fst (fst (at_destination (w_epoch (n_w n)) true q (n_mocks n) (n_mgr n)))
            | None => None
            end) :: answers_of (fst (nstep n (NExec 0 true))) j
  end.

Lemma answers_length n k : length (answers_of n k) = k.
Proof. revert n. induction k as [|k IH]; intros n; [done|]. cbn. by rewrite IH. Qed.

Lemma answers_ops n k : ops_of n (repeat (NExec 0 true) k) = map (OExec 0) (answers_of n k).
Proof. revert n. induction k as [|k IH]; intros n; [done|]. cbn [repeat ops_of answers_of map as_op]. by rewrite IH. Qed.

Lemma answers_ok n k : Match n -> (k <= length (w_calls (n_w n)))%nat ->
  Forall (eq SOk) (statuses (n_w n) (map (OExec 0) (answers_of n k))).
Proof.
  revert n. induction k as [|k IH]; intros n HM Hk; [constructor|]. cbn [answers_of map statuses].
  destruct (nth_error (w_calls (n_w n)) 0) as [q|] eqn:E; [|apply nth_error_None in E; lia].
  destruct (exec_world n 0 true q HM E) as (r & l & ms & g & E1 & E2 & _).
  pose proof (as_op_status n (NExec 0 true) I) as Hst. pose proof (as_op_step n (NExec 0 true)) as Hstep.
  cbn [as_op] in Hst, Hstep. rewrite E in Hst, Hstep. constructor; [by rewrite <- Hst, E2|].
  rewrite <- Hstep. apply IH; [by apply match_step|]. rewrite E1.
  change (k <= length (drop_nth 0 (w_calls (n_w n))))%nat. clear -Hk E.
  destruct (w_calls (n_w n)) as [|x y]; [done|]. unfold drop_nth. cbn in *. lia.
Qed.

Lemma nsettle_ops n : ops_of n (nsettle n) = settle (n_w n) (answers_of n (length (w_calls (n_w n)))).
Proof.
  unfold nsettle, settle. rewrite ops_of_app, answers_ops. f_equal.
  generalize (nrun n (repeat (NExec 0 true) (length (w_calls (n_w n))))). generalize (length (w_res (n_w n)) + length (w_calls (n_w n)))%nat.
  intros k. induction k as [|k IH]; intros v; [done|]. cbn [repeat ops_of as_op]. by rewrite IH.
Qed.

Lemma nsettle_shown n : Forall shown (nsettle n).
Proof. unfold nsettle. apply list.Forall_app. split; apply List.Forall_forall; intros x Hx; apply repeat_spec in Hx as ->; done. Qed.

Lemma norderly_back n xs : Forall shown xs -> along orderly (n_w n) (ops_of n xs) -> nalong norderly n xs.
Proof.
  revert n. induction xs as [|x xs IH]; intros n Hs; [done|]. inversion Hs; subst. cbn [nalong ops_of along]. intros [Hx H]. split.
  - destruct x as [o|i b|c v|c|c v|v]; cbn [as_op norderly shown] in *; try done. by destruct o.
  - apply IH; [done|]. by rewrite as_op_step.
Qed.

Lemma in_turn_settle n k j : nalong in_turn n (repeat (NExec 0 true) k ++ repeat (NDo (OCb 0)) j).
Proof.
  revert n. induction k as [|k IH]; intros n; cbn [repeat app].
  - revert n. induction j as [|j IH]; intros n; [done|]. cbn [repeat nalong]. split; [done|apply IH].
  - cbn [nalong]. split; [|apply IH]. intros q i q' _ Hi. lia.
Qed.

Lemma net_settles n0 xs :
  Start n0 -> nalong norderly n0 xs ->
  let n := nrun n0 xs in let w := n_w n in
  c_fees (w_cfg w) <= 10000 -> Forall no_whitelisting (unanswered w) ->
  Forall (eq SOk) (nstatuses n (nsettle n)) /\ nalong norderly n (nsettle n) /\ nalong in_turn n (nsettle n)
  /\ quiet (n_w (nrun n (nsettle n))).
Proof.
  intros Hs Ho n w Hf Hw.
  assert (HM : Match n) by (apply match_run; by apply start_match).
  pose proof (settles (n_w n0) (ops_of n0 xs) (answers_of n (length (w_calls w)))) as HS. cbn zeta in HS.
  rewrite <- nrun_world in HS. fold n w in HS.
  destruct HS as (S1 & S2 & S3); try done; [apply Hs|by apply norderly_ops|apply answers_length|by apply answers_ok|].
  unfold w in S1, S2, S3. rewrite <- (nsettle_ops n) in S1, S2, S3. split_and!.
  - by rewrite nstatuses_shown by apply nsettle_shown.
  - apply norderly_back; [apply nsettle_shown|done].
  - apply in_turn_settle.
  - by rewrite nrun_world.
Qed.

Lemma all_leave_net_anywhere n0 xs m d a e l :
  Start n0 -> nalong norderly n0 xs ->
  let n := nrun n0 xs in let w := n_w n in let v := nrun n (nsettle n) in
  c_fees (w_cfg w) <= 10000 -> Forall no_whitelisting (unanswered w) ->
  solvent v -> operator m w -> c_usttok (w_cfg w) = TIssued -> d <> SELF ->
  unstake_queue (n_w v) + ONE_EGLD <= a -> 0 < ls_worth (n_w v) a -> 10 <= e -> w_epoch w + e + 10 < 2 ^ 64 ->
  Forall (fun x => fst x <> SELF /\ all_due w (w_epoch w + e) (snd x)) l ->
  (forall k u, brought k u l <= ust_of k u w) ->
  let first := nsettle n ++ NDo (OEpoch e) :: ncollect m v ++ [NDo (OTx d a [] Delegate)] in
  Forall (eq SOk) (nstatuses n (first ++ map NDo (cash_out l)))
  /\ payments (n_w (nrun n first)) l = map (fun x => pay_total (snd x)) l.
Proof.
  intros Hs Ho n w v Hf Hq Hsol Hop Hut Hdd Hqa Hwa He1 He Hp Hb first.
  destruct (net_settles n0 xs Hs Ho Hf Hq) as (S1 & S2 & _ & S3). fold n v in S1, S2, S3.
  assert (Hr : Reachable w) by (by apply net_reach).
  set (outs := answers_of n (length (w_calls w))).
  assert (Ev : n_w v = run w (settle w outs)) by (unfold v; rewrite nrun_world, nsettle_ops; done).
  destruct (tokens_final w (settle w outs) Hr) as [T1 T2]. rewrite <- Ev in T1, T2.
  pose proof (calm_kept SManagers w outs I) as F1. pose proof (calm_kept SActive w outs I) as F2.
  pose proof (calm_kept Owner w outs I) as F3. pose proof (calm_kept Epoch w outs I) as F4.
  pose proof (calm_kept TokenBook w outs I) as F5.
  assert (F6 : forall n u, ust_of n u (n_w v) = ust_of n u w) by (intros k u; rewrite Ev; exact (calm_kept (UstOf k u) w outs I)).
  cbn [same] in F1, F2, F3, F4, F5. rewrite <- Ev in F1, F2, F3, F4, F5. destruct F5 as (_ & F5 & _).
  assert (Hop' : operator m (n_w v)).
  { destruct Hop as (O1 & O2 & O3 & O4). split_and!; [done| |by apply T1|congruence]. by rewrite F1, F3. }
  pose proof (all_leave_net n0 (xs ++ nsettle n) m d a e l Hs) as X. cbv zeta in X. rewrite nrun_app in X. fold n v in X.
  unfold first. rewrite <- app_assoc, nstatuses_app, nrun_app. fold v.
  destruct X as [X1 X2]; try done.
  - apply nalong_app. by split.
  - by apply T2.
  - by rewrite F4.
  - unfold all_due, release_epoch. rewrite F5, F4. exact Hp.
  - intros k u. rewrite F6. apply Hb.
  - split; [by apply list.Forall_app|exact X2].
Qed.

(** * Cover of the mocks *)
From Verif Require Import Scenario.
Lemma covered n xs c :
  Start n -> ntally (rewards_paid c) n xs <= mock_egld n c + ntally (funded c) n xs ->
  fst (kept_at (nrun n xs) c) + snd (kept_at (nrun n xs) c) <= mock_egld (nrun n xs) c.
Proof. intros Hs H. pose proof (mock_balance n xs c Hs). lia. Qed.

Definition short_start : net := Net w0 ∅ 0.
Definition short_ops : list nact :=
  [NNew 1000 0; NDo (OTx 100 5 [] RegisterLsToken); NExec 0 true; NDo (OCb 0);
   NDo (OTx 100 5 [] RegisterUnstakeToken); NExec 0 true; NDo (OCb 0);
   NDo (OTx 100 0 [] SetStateActive); NDo (OTx 100 0 [] (SetScoringConfig scfg_default));
   NDo (OTx 100 E [] (Whitelist 1000 77 0 0 10 800)); NExec 0 true; NDo (OCb 0);
   NDo (OTx 500 (100 * E) [] Delegate); NDo (OTx 100 0 [] (DelegatePending None)); NExec 0 true; NDo (OCb 0);
   NDo (OEpoch 360); NDo (OTx 100 0 [] ClaimRewards); NExec 0 true; NDo (OCb 0);
   NDo (OTx 500 0 [Pay TokLs (94 * E)] UnDelegate); NDo (OTx 100 0 [] (UnDelegatePending None)); NExec 0 true; NDo (OCb 0);
   NDo (OEpoch 10); NDo (OTx 100 0 [] (WithdrawPending 1000)); NExec 0 true].

Fixpoint calm_net (n : net) (xs : list nact) : bool :=
  match xs with
  | [] => true
  | x :: r => match x with
              | NExec 0 _ => true | NDo o => orderly_b (n_w n) o | NNew _ _ => true | _ => false
              end && ok_b (snd (nstep n x)) && calm_net (fst (nstep n x)) r
  end.
Lemma calm_net_ok n xs : calm_net n xs = true ->
  nalong (fun m y => norderly m y /\ in_turn m y) n xs /\ Forall (eq SOk) (nstatuses n xs).
Proof.
  revert n. induction xs as [|x xs IH]; intros n; [by split; [|constructor]|]. cbn [calm_net nalong nstatuses].
  intros [[A B]%andb_true_iff C]%andb_true_iff. destruct (IH _ C) as [I1 I2]. split; [split; [|done]|].
  - destruct x as [o|[|i] b|c v|c|c v|v]; try done; (split; [|try done]); try done.
    + by apply orderly_sound.
    + intros k j k' _ Hj. lia.
  - constructor; [|done]. by destruct (snd (nstep n x)).
Qed.

Lemma runs_short : exists n xs c,
  Start n /\ nalong (fun m y => norderly m y /\ in_turn m y) n xs /\ Forall (eq SOk) (nstatuses n xs)
  /\ let v := nrun n xs in
     mock_egld v c < snd (kept_at v c)
     /\ (exists m, n_mocks v !! c = Some m /\ m_uepoch m <= w_epoch (n_w v))
     /\ In (KWithd c, RFail) (w_res (n_w v)).
Proof.
  exists short_start, short_ops, 1000.
  split; [split; [exact w0_is_deployed|intros c m H; cbn in H; by rewrite lookup_empty in H]|].
  destruct (calm_net_ok short_start short_ops) as [A B]; [vm_compute; reflexivity|]. split; [done|]. split; [done|].
  assert (X : match n_mocks (nrun short_start short_ops) !! 1000 with
              | Some m => (m_egld m <? m_und m) && (m_uepoch m <=? w_epoch (n_w (nrun short_start short_ops)))
              | None => false end = true) by (vm_compute; reflexivity).
  assert (Y : w_res (n_w (nrun short_start short_ops)) = [(KWithd 1000, RFail)]) by (vm_compute; reflexivity).
  generalize dependent (nrun short_start short_ops). intros v X Y. cbv zeta. unfold mock_egld, kept_at.
  destruct (n_mocks v !! 1000) as [m|]; [|done]. apply andb_true_iff in X as [X1 X2]. apply N.ltb_lt in X1. apply N.leb_le in X2.
  split_and!; [done|by exists m|]. rewrite Y. by left.
Qed.
