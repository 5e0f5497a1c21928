(** L_Exits.v — the ways by which EGLD leaves the contract. *)
From Verif Require Export Spec7 L_Coal L_Access L_Worth L_User.

Lemma damts_in d ds : In d ds -> d_amt d <= damts ds.
Proof. unfold damts. induction ds as [|x ds IH]; cbn; [done|]. intros [->|H]; [lia|]. specialize (IH H). lia. Qed.

Lemma maybe_log caller i r w w3 :
  w_log w = [] -> ust_maybe caller r (egld_paid caller i w) w3 ->
  exists l, w_log w3 = (if 0 <? i then [XEgld caller i] else []) ++ l /\ forall v o, Forall (leaves v o) l.
Proof.
  intros Hl Hm. rewrite egld_paid_eq in Hm. destruct Hm as [Hr|n w2 Hr Ht Hi].
  - cbn. rewrite Hl. exists []. split; [by rewrite app_nil_r|]. intros. constructor.
  - apply ust_issue_frame in Hi as (? & ? & ? & ? & ->). cbn. rewrite Hl.
    eexists. split; [reflexivity|]. intros. repeat constructor.
Qed.

Lemma leaves_did w o w' s : w_log w = [] -> did w o w' s -> Forall (leaves w o) (w_log w').
Proof.
  intros Hl D.
  destruct D; subst_pools; cbn; rewrite ?Hl; cbn; try (by repeat constructor);
    try (match goal with H : exec_call _ _ _ = _ |- _ => apply exec_call_frame in H as [l ->]; cbn; rewrite Hl; constructor end).

  - match goal with H : ust_maybe _ _ _ _ |- _ => apply maybe_log in H as (l & -> & Hq); [|exact Hl] end.
    repeat apply list.Forall_app_2; [|apply Hq|by repeat constructor].
    destruct (0 <? i) eqn:B; [|constructor]. constructor; [|constructor]. left. exists x. split; [done|].
    pose proof (split_facts (pend (w_pool w)) (redeemed x (w_pool w))) as Hs. cbn zeta in Hs. destruct Hs as (Hs1 & Hs2 & _).
    change (egld_worth w x) with (redeemed x (w_pool w)). change (pending_egld w) with (pend (w_pool w)).
    fold e in Hs1, Hs2. fold i r in Hs1, Hs2. subst e. lia.
  - repeat apply list.Forall_app_2; [|constructor; [|constructor]|by repeat constructor].
    + destruct (given_back pays _) as [[m x]|]; repeat constructor.
    + right. left. by exists a, pays.
  - apply list.Forall_app_2; [|by repeat constructor]. apply list.Forall_forall. intros x Hx.
    apply elem_of_list_In, in_map_iff in Hx as (d & <- & Hd). cbn. split; [|split].
    + match goal with H : _ `sublist_of` _ |- _ => apply sublist_addrs in H; rewrite list.Forall_forall in H; by apply H, elem_of_list_In end.
    + apply damts_in in Hd. change (pending_egld w) with (pend (w_pool w)). lia.
    + exists caller, o. split; [by apply manager_spec|done].
  - apply list.Forall_app_2; [|by repeat constructor]. apply list.Forall_forall. intros x Hx.
    by apply elem_of_list_In, in_map_iff in Hx as (d & <- & Hd).
  - constructor; [|constructor]. cbn. repeat split; [done|]. by exists caller.
  - constructor; [|constructor]. cbn. split; [by apply manager_spec|]. split; [done|]. split; [done|]. by exists admin, total, cap, nodes, apy.
  - constructor; [|constructor]. right. right. left. destruct r; [|done]. by exists i, c.
  - destruct (0 <? a) eqn:B; [|constructor]. constructor; [|constructor]. right. right. right. destruct r; [|done].
    exists i, ls. split; [done|]. split; [lia|done].
Qed.

Lemma leaves_step w o e : In e (w_log (fst (step w o))) -> leaves w o e.
Proof.
  intros He. pose proof (leaves_did (set_log [] w) _ _ _ eq_refl (step_did w o)) as H.
  rewrite list.Forall_forall in H. apply (H e). by apply elem_of_list_In.
Qed.

(** * Over histories *)
Section GRP.
Context (S : group).

Definition to_grp (e : eff) : N := match e with XEgld u a => if S u then a else 0 | _ => 0 end.
Lemma to_grp_quiet : hush to_grp. Proof. by intros []. Qed.
Definition back_adv (x : call * reply) : N := match snd x with RFail => advanced S (fst x) | RDone _ => 0 end.

Lemma adv_deleg ds : sumN (map (advanced S) (map kdeleg ds)) = 0.
Proof. induction ds; cbn in *; lia. Qed.
Lemma adv_undel ds : sumN (map (advanced S) (map kundel ds)) = 0.
Proof. induction ds; cbn in *; lia. Qed.

Lemma exits_did w o w' s :
  w_log w = [] -> did w o w' s ->
  sumN (map to_grp (w_log w')) + may_come_back S w'
  <= advanced_by S w o s w' + cashed_by S w o s w' + may_come_back S w.
Proof.
  intros Hl D. unfold may_come_back, advanced_by, cashed_by.
  change (fun x : call * reply => match snd x with RFail => advanced S (fst x) | RDone _ => 0 end) with back_adv.
  destruct D; subst_pools;
    try (match goal with H : nth_error (w_res w) ?i = Some (?k, ?r) |- _ =>
           pose proof (sumN_drop_nth back_adv i (w_res w) (k, r) H) as HD; try (is_var r; destruct r); try discriminate; rewrite ?H end);
    try (cbn; rewrite ?Hl; cbn; rewrite ?map_app, ?sumN_app, ?back_log_quiet, ?sum_map_calls, ?adv_deleg, ?adv_undel by exact to_grp_quiet; cbn in *; lia).

  - unshelve epose proof (maybe_quiet to_grp _ _ _ _ _ to_grp_quiet _ H9) as HQ; [exact Hl|].
    pose proof (split_facts (pend (w_pool w)) (redeemed x (w_pool w))) as Hs. cbn zeta in Hs. destruct Hs as (Hs1 & Hs2 & _).
    fold e in Hs1, Hs2. fold i r in Hs1, Hs2.
    replace (handed_in _) with x by (unfold handed_in; cbn; lia).
    change (egld_worth w x) with (redeemed x (w_pool w)). change (pending_egld w) with (pend (w_pool w)). fold e.
    cbn. rewrite !map_app, !sumN_app, HQ. um_clean. cbn. destruct (0 <? i); destruct (S caller); lia.
  - change (total_withdrawn w) with (withdrawn (w_pool w)). change (handed_in pays) with (amounts pays). fold s.
    cbn. rewrite ?Hl; cbn; rewrite ?map_app, ?sumN_app, ?back_log_quiet by exact to_grp_quiet. cbn. destruct (S caller); lia.
  - pose proof (sumN_drop_nth (advanced S) i (w_calls w) k H) as HD.
    match goal with H : exec_call _ _ _ = _ |- _ => apply exec_call_frame in H as [l ->] end.
    cbn in *. rewrite Hl, map_app, sumN_app. unfold back_adv at 2. cbn. destruct r; cbn; lia.
  - cbn in *. destruct (0 <? a); cbn in *; destruct (S who); lia.
Qed.

Lemma exits_hist w os :
  tally (received_by S) w os + may_come_back S (run w os)
  <= tally (advanced_by S) w os + tally (cashed_by S) w os + may_come_back S w.
Proof.
  revert w. induction os as [|o os IH]; intros w; [cbn; lia|]. cbn [run tally].
  specialize (IH (fst (step w o))).
  pose proof (exits_did (set_log [] w) o _ _ eq_refl (step_did w o)) as H.
  change (advanced_by S (set_log [] w)) with (advanced_by S w) in H.
  change (cashed_by S (set_log [] w)) with (cashed_by S w) in H.
  change (may_come_back S (set_log [] w)) with (may_come_back S w) in H.
  change (sumN (map to_grp (w_log (fst (step w o))))) with (received_by S w o (snd (step w o)) (fst (step w o))) in H.
  lia.
Qed.

Lemma not_cashed w os : Forall (fun o => ~ cashes_in S o) os -> tally (cashed_by S) w os = 0.
Proof.
  intros HF. revert w. induction HF as [|o os Ho HF IH]; intros w; [done|]. cbn [tally]. rewrite IH.
  enough (H : cashed_by S w o (snd (step w o)) (fst (step w o)) = 0) by (rewrite H; lia).
  generalize (snd (step w o)). intros s. destruct o as [u a pays ep| | | | | | | | |]; try done.
  destruct ep; try done; cbn in *; destruct s; try done; destruct (S u); try done; by destruct Ho.
Qed.

Lemma exits_idle w os :
  Forall (fun o => ~ cashes_in S o) os ->
  tally (received_by S) w os + may_come_back S (run w os) <= tally (advanced_by S) w os + may_come_back S w.
Proof. intros H. pose proof (exits_hist w os). rewrite (not_cashed w os H) in *. lia. Qed.
End GRP.

Lemma back_le w n pays pot :
  Forall (matured w) pays -> (pays = [] \/ amounts (removelast pays) < pot) -> back_of (given_back pays pot) n <= ust_paid n pays.
Proof.
  intros HF Hl. unfold given_back. destruct (amounts pays <=? pot) eqn:B; [cbn; lia|].
  destruct (list.last pays) as [[t a]|] eqn:El; [|cbn; lia]. destruct Hl as [->|Hl]; [discriminate El|].
  apply last_Some in El as [l' ->]. rewrite removelast_last in Hl.
  assert (Ht : exists k, t = TokUst k).
  { rewrite Forall_app in HF. destruct HF as [_ HF]. apply Forall_inv in HF as (k & ? & ? & ? & _). by exists k. }
  destruct Ht as [k ->]. unfold amounts, ust_paid in *. rewrite !map_app, !sumN_app in *. cbn in *.
  destruct (k =? n); lia.
Qed.

(** * Where tokens come from *)
Lemma ls_paid_at caller m v w : amt_at (w_ls (ls_paid caller m w)) v = amt_at (w_ls w) v + (if v =? caller then m else 0).
Proof.
  cbn. rewrite amt_credit, !amt_insert. unfold lbal. destruct (N.eqb_spec v caller) as [->|]; repeat case_decide; subst; try done; lia.
Qed.

Lemma ls_appear_did w o w' s v :
  did w o w' s -> ls_balance v w < ls_balance v w' -> ls_appear w o v (ls_balance v w' - ls_balance v w).
Proof.
  intros D H. unfold ls_appear. unfold ls_balance in *.
  destruct D; subst_pools; try (exfalso; revert H; cbn; lia).
  - change (w_ls (commit _ _)) with (w_ls (ls_paid caller (minted a (w_pool w)) (recv a w))) in *.
    rewrite ls_paid_at in *. change (w_ls (recv a w)) with (w_ls w) in *. rewrite <- ls_worth_minted in *.
    destruct (N.eqb_spec v caller) as [->|]; [|lia]. left. exists a. split; [done|]. lia.
  - exfalso. um_clean. cbn in H. rewrite !amt_insert in H. unfold lbal in *. cbn in *. repeat case_decide; subst; lia.
  - change (w_ls (commit _ _)) with (w_ls (ls_paid caller (minted a (w_pool w)) w)) in *.
    rewrite ls_paid_at in *. rewrite <- ls_worth_minted in *.
    destruct (N.eqb_spec v caller) as [->|]; [|lia]. right. right. left. exists a, orig. split; [done|]. split; [done|]. lia.
  - match goal with H : exec_call _ _ _ = _ |- _ => apply exec_call_frame in H as [l ->] end. cbn in H. lia.
  - assert (E : w_ls (white_ok_world c a caller p (set_res (drop_nth i (w_res w)) w))
              = w_ls (ls_paid caller (minted a (w_pool w)) w)) by reflexivity.
    rewrite E, ls_paid_at in *. rewrite <- ls_worth_minted in *.
    destruct (N.eqb_spec v caller) as [->|]; [|lia]. right. left. destruct r as [|r]; [done|]. exists i, c, a, r. split_and!; [done|done|lia].
  - cbn in *. rewrite amt_credit, !amt_insert in *. unfold lbal in *. right. right. right. exists from.
    destruct (decide (v = to)) as [->|]; [|repeat case_decide; subst; try congruence; lia].
    destruct (decide (from = to)) as [->|]; [|repeat case_decide; subst; try congruence; split; [f_equal; lia|lia]].
    repeat case_decide; subst; try congruence; lia.
Qed.

Lemma maybe_adds caller r w w' k :
  caller <> SELF -> ust_maybe caller r w w' -> amt_at (w_ust w) (k, caller) < amt_at (w_ust w') (k, caller) ->
  amt_at (w_ust w') (k, caller) = amt_at (w_ust w) (k, caller) + r.
Proof.
  intros Hc [_|n w2 _ _ D] H; [lia|]. rewrite (issue_mine _ _ _ _ _ _ k Hc D) in *. destruct (k =? n); lia.
Qed.

Lemma ust_appear_did w o w' s n v :
  w_log w = [] -> did w o w' s -> v <> SELF -> ust_of n v w < ust_of n v w' -> ust_appear w o w' n v (ust_of n v w' - ust_of n v w).
Proof.
  intros Hl D Hv H. unfold ust_appear. unfold ust_of in *.
  destruct D; subst_pools; try (exfalso; revert H; cbn; lia).
  - match goal with H : ust_maybe _ _ _ _ |- _ => rename H into Hm end.
    change (w_ust (commit _ _)) with (w_ust w3) in *.
    set (w1 := set_ls _ w) in Hm.
    assert (Eu : w_ust (egld_paid caller i w1) = w_ust w) by (rewrite egld_paid_eq; reflexivity).
    destruct (decide (v = caller)) as [->|Hn].
    2:{ rewrite (maybe_others _ _ _ _ n v Hv Hn Hm), Eu in H. lia. }
    pose proof (maybe_adds _ _ _ _ n Hv Hm) as Ha. rewrite Eu in Ha. specialize (Ha H). rewrite Ha.
    left. exists x. split; [done|]. unfold egld_sent. cbn. rewrite map_app, sumN_app.
    rewrite (maybe_quiet (egld_to caller) _ _ _ _ _ ltac:(by intros []) (Hl : w_log w1 = []) Hm).
    pose proof (split_facts (pend (w_pool w)) (redeemed x (w_pool w))) as Hs. cbn zeta in Hs. destruct Hs as (Hs1 & Hs2 & _).
    fold e in Hs1, Hs2. fold i r in Hs1, Hs2. change (egld_worth w x) with e.
    cbn. rewrite N.eqb_refl. destruct (N.ltb_spec 0 i); lia.
  - cbn in H. match goal with H : wd_post _ _ _ _ _ |- _ => destruct H as (W1 & W2 & W3 & W4) end. exfalso.
    destruct (decide (v = caller)) as [->|Hn]; [|rewrite W3 in H by done; lia].
    specialize (W2 n). pose proof (back_le w n pays (withdrawn (w_pool w)) ltac:(done) ltac:(done)). lia.
  - match goal with H : exec_call _ _ _ = _ |- _ => apply exec_call_frame in H as [l ->] end. cbn in H. lia.
  - cbn in *. rewrite amt_credit, !amt_insert in *. unfold ubal in *. right. exists from.
    destruct (decide ((n, v) = (n0, to))) as [[= -> ->]|]; [|repeat case_decide; simplify_eq; try done; lia].
    destruct (decide (from = to)) as [->|]; [|repeat case_decide; simplify_eq; split; [f_equal; lia|lia]].
    repeat case_decide; simplify_eq; lia.
Qed.

Lemma ls_appears w o v : let w' := fst (step w o) in
  ls_balance v w < ls_balance v w' -> ls_appear w o v (ls_balance v w' - ls_balance v w).
Proof. intros w' H. exact (ls_appear_did (set_log [] w) o w' _ v (step_did w o) H). Qed.

Lemma ust_appears w o n v : let w' := fst (step w o) in
  v <> SELF -> ust_of n v w < ust_of n v w' -> ust_appear w o w' n v (ust_of n v w' - ust_of n v w).
Proof. intros w' Hv H. exact (ust_appear_did (set_log [] w) o w' _ n v eq_refl (step_did w o) Hv H). Qed.
