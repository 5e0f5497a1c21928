(** L_Iff.v — exactly when a batch is accepted. *)
From Verif Require Export Spec4 L_Select.

Lemma norm_iff v lo hi d : (exists r, norm_linear_clamp v lo hi d = Ok r) <-> ~ (lo = v /\ hi = v).
Proof.
  split.
  - intros [r H] [-> ->]. unfold norm_linear_clamp in H. destruct (v <? v) eqn:B; [lia|].
    rewrite sub_ok in H by lia. cbn [rbind] in H. unfold div in H. rewrite N.sub_diag in H. discriminate H.
  - intros H. destruct (norm_ok v lo hi d) as (r & E & _); [lia|by eexists].
Qed.

Definition ratable_i (sc : scfg) (i : sinfo) : Prop :=
  ~ (k_min_nodes sc = i_nodes i /\ k_max_nodes sc = i_nodes i)
  /\ ~ (k_min_apy sc = i_apy i /\ k_max_apy sc = i_apy i).

Lemma score_iff i b t sc : (exists s, score_of i b t sc = Ok s) <-> ratable_i sc i.
Proof.
  unfold score_of, node_score, apy_score, ratable_i. split.
  - intros [s H]. apply rbind_ok in H as [x [E1 H]]. apply rbind_ok in H as [y [E2 _]].
    apply rbind_ok in E1 as [r1 [E1 _]]. apply rbind_ok in E2 as [r2 [E2 _]].
    split; eapply norm_iff; by eexists.
  - intros [H1 H2]. apply (norm_iff _ _ _ b) in H1 as [r1 ->]. apply (norm_iff _ _ _ (negb b)) in H2 as [r2 ->].
    destruct (stake_ok (i_avail i) t b sc) as (s & Hs & _). cbn. rewrite Hs. cbn. by eexists.
Qed.

Lemma score_all_iff l b t sc : (exists l' T, score_all l b t sc = Ok (l', T)) <-> Forall (ratable_i sc) l.
Proof.
  induction l as [|i l IH]; cbn [score_all].
  - split; [constructor|by eexists _, _].
  - split.
    + intros (l' & T & H). apply rbind_ok in H as [s [E H]]. apply rbind_ok in H as [[r' t'] [E2 _]].
      constructor; [eapply score_iff; by eexists|]. apply IH. by eexists _, _.
    + intros H. inversion H as [|? ? H1 H2]; subst. apply (score_iff i b t sc) in H1 as [s ->].
      apply IH in H2 as (l' & T & ->). cbn. by eexists _, _.
Qed.

Lemma infos_ratable pv sc l is : Forall2 (is_info pv) l is ->
  (Forall (ratable_i sc) is <-> forall c, In c l -> ratable sc (recp pv c)).
Proof.
  induction 1 as [|c i l is (p & Hp & Hi & Hle) _ IH]; [split; [by intros _ c []|constructor]|].
  assert (recp pv c = p) as Hr by (unfold recp; by rewrite Hp).
  assert (ratable_i sc i <-> ratable sc p) as He.
  { apply mk_info_inv in Hi as (_ & _ & _ & Ha & Hn & _). unfold ratable_i, ratable. by rewrite Ha, Hn. }
  rewrite List.Forall_cons_iff, IH, He. split.
  - intros [H1 H2] d [<-|Hd]; [by rewrite Hr|auto].
  - intros H. split; [rewrite <- Hr; apply H; by left|]. intros d Hd. apply H. by right.
Qed.

Lemma deleg_safe_iff p : (exists b, prov_eligible p = Ok b /\ (b = true -> p_pun p <= p_staked p + p_pst p)) <-> deleg_safe p.
Proof.
  split.
  - intros (b & H & Hb). unfold prov_eligible in H. unfold deleg_safe. destruct (p_elig p); [|by left]. right. cbn in H.
    destruct (p_cap p =? 0) eqn:B.
    + injection H as <-. split; [by apply Hb|left; lia].
    + apply rbind_ok in H as [x [E H]]. apply rbind_ok in H as [y [E1 H]]. unfold avail in E. rstep E. rstep E1.
      split; [done|by right].
  - intros H. destruct (eligible_total p H) as (b & E & Hb). exists b. split; [done|]. intros ->.
    destruct Hb as [Hb _]. destruct (Hb eq_refl) as [He _]. destruct H as [H|[H _]]; [congruence|done].
Qed.

Definition takers (pv : gmap N prov) (l : list N) : N := N.of_nat (length (List.filter (fun c => takes_more (recp pv c)) l)).

Lemma sel_deleg_iff l pv maxp n :
  n < maxp -> Forall (fun c => exists p, pv !! c = Some p /\ caps_ok p) l ->
  (exists is t, sel_deleg_loop l pv maxp n = Ok (is, t))
  <-> forall l1 c l2, l = l1 ++ c :: l2 -> n + takers pv l1 < maxp -> deleg_safe (recp pv c).
Proof.
  intros Hn HF. revert n Hn. induction HF as [|c l (p & Hp & Hc) _ IH]; intros n Hn; cbn [sel_deleg_loop].
  - split; [intros _ [|] ? ? H; discriminate H|by eexists _, _].
  - assert (recp pv c = p) as Hr by (unfold recp; by rewrite Hp).
    unfold get_prov. rewrite Hp. cbn [rbind].
    assert (Htk : forall l1, takers pv (c :: l1) = (if takes_more p then 1 else 0) + takers pv l1).
    { intros l1. unfold takers. cbn [List.filter]. rewrite Hr. destruct (takes_more p); cbn [length]; lia. }
    split.
    + intros (is & t & H). apply rbind_ok in H as [b [Eb H]].
      pose proof (eligible_spec _ _ Eb) as Hb.
      assert (deleg_safe p) as Hs.
      { apply deleg_safe_iff. exists b. split; [done|]. intros ->. apply rbind_ok in H as [a [E _]].
        unfold avail in E. rstep E. done. }
      intros [|d l1] x l2 Heq Hlt; injection Heq as <- ->; [by rewrite Hr|]. rewrite Htk, <- Hb in Hlt. destruct b.
      * apply rbind_ok in H as [a [_ H]]. apply rbind_ok in H as [i [_ H]].
        destruct (n + 1 =? maxp) eqn:B; [exfalso; lia|]. apply rbind_ok in H as [[is' t'] [E H]].
        eapply (proj1 (IH (n + 1) ltac:(lia))); [by eexists _, _|done|lia].
      * destruct (n =? maxp) eqn:B; [lia|]. eapply (proj1 (IH n Hn)); [by eexists _, _|done|lia].
    + intros H. assert (deleg_safe p) as Hs by (rewrite <- Hr; apply (H [] c l eq_refl); cbn; lia).
      destruct (eligible_total p Hs) as (b & Eb & He). rewrite Eb. cbn [rbind]. pose proof (eligible_spec _ _ Eb) as Hb.
      destruct b.
      * destruct He as [He _]. destruct (He eq_refl) as [He' _]. destruct Hs as [Hs|[Hs1 Hs2]]; [congruence|].
        assert (Ha : avail p = Ok (p_staked p + p_pst p - p_pun p)) by (unfold avail; by rewrite sub_ok). rewrite Ha. cbn [rbind].
        assert (exists i, mk_info c p = Ok i) as [i ->].
        { unfold mk_info. rewrite Ha. destruct (p_cap p =? 0) eqn:B; [cbn; by eexists|]. rewrite sub_ok by (destruct Hc; lia). cbn. by eexists. }
        cbn [rbind]. destruct (n + 1 =? maxp) eqn:B; [by eexists _, _|].
        destruct (proj2 (IH (n + 1) ltac:(lia))) as (is & t & ->); [|by eexists _, _].
        intros l1 x l2 -> Hlt. apply (H (c :: l1) x l2 eq_refl). rewrite Htk, <- Hb. lia.
      * destruct (n =? maxp) eqn:B; [lia|]. apply (IH n Hn).
        intros l1 x l2 -> Hlt. apply (H (c :: l1) x l2 eq_refl). rewrite Htk, <- Hb. lia.
Qed.

Lemma distribute_deleg_iff l A t sc :
  (exists ds rem, distribute_amount l A true t sc = Ok (ds, rem)) <-> Forall (ratable_i sc) l.
Proof.
  rewrite <- (score_all_iff l true t sc). unfold distribute_amount. split.
  - intros (ds & rem & H). apply rbind_ok in H as [[l' T] [E _]]. by eexists _, _.
  - intros (l' & T & ->). cbn [rbind].
    destruct (distribute_total_deleg l' A A T) as (ds & rem & E1). rewrite E1. cbn [rbind].
    destruct (rem =? 0); [by eexists _, _|]. apply remaining_total_deleg.
Qed.

Lemma takers_split pv l1 l2 : takers pv (l1 ++ l2) = takers pv l1 + takers pv l2.
Proof. unfold takers. rewrite List.filter_app, app_length. lia. Qed.
Lemma takers_le pv l : takers pv l <= N.of_nat (length l).
Proof. unfold takers. induction l as [|c l IH]; cbn [List.filter length]; [lia|]. destruct (takes_more _); cbn [length]; lia. Qed.

Lemma get_deleg_iff a dl ul pv g c :
  MIN_EGLD <= a -> 1 <= c_maxsel g -> N.of_nat (length dl) < U32 ->
  Forall (fun c => exists p, pv !! c = Some p /\ caps_ok p) dl ->
  (exists ds c1, get_delegation_contract a true dl ul pv g c = Ok (ds, c1))
  <-> candp pv dl (N.min (a / MIN_EGLD) (c_maxsel g)) <> []
      /\ (forall l1 c l2, dl = l1 ++ c :: l2 -> takers pv l1 < N.min (a / MIN_EGLD) (c_maxsel g) -> deleg_safe (recp pv c))
      /\ exists sc, c_score g = Some sc
         /\ forall c, In c (candp pv dl (N.min (a / MIN_EGLD) (c_maxsel g))) -> ratable sc (recp pv c).
Proof.
  intros Ha HM HU HF. unfold get_delegation_contract.
  destruct dl as [|d0 dl0].
  { cbn. split; [intros (? & ? & H); discriminate H|]. intros [H _]. exfalso. apply H. unfold candp. by rewrite firstn_nil. }
  set (dl := d0 :: dl0) in *.
  assert (Hpos : 0 < N.of_nat (length dl)) by (subst dl; cbn [length]; lia).
  destruct (N.of_nat (length dl) =? 0) eqn:B; [lia|]. cbn [negb require rbind]. unfold select_deleg.
  destruct (maxp_ok a (c_maxsel g) (N.of_nat (length dl)) Ha HM Hpos HU) as (m & -> & Hm0 & _ & _ & _ & Hm). cbn [rbind].
  set (k := N.min (a / MIN_EGLD) (c_maxsel g)) in *.
  assert (Hcand : forall is t, sel_deleg_loop dl pv m 0 = Ok (is, t) -> Forall2 (is_info pv) (candp pv dl k) is).
  { intros is t E. apply sel_deleg_exact in E as [E _]; [|done]. rewrite N.sub_0_r, Hm, firstn_min in E. exact E. }
  pose proof (sel_deleg_iff dl pv m 0 Hm0 HF) as Hsel.
  assert (Hsafe : (forall l1 c l2, dl = l1 ++ c :: l2 -> 0 + takers pv l1 < m -> deleg_safe (recp pv c))
    <-> forall l1 c l2, dl = l1 ++ c :: l2 -> takers pv l1 < k -> deleg_safe (recp pv c)).
  { assert (forall l1 c l2, dl = l1 ++ c :: l2 -> (0 + takers pv l1 < m <-> takers pv l1 < k)) as Hx.
    { intros l1 x l2 Heq. pose proof (takers_le pv l1). assert (length dl = length l1 + S (length l2))%nat by (rewrite Heq, app_length; done). lia. }
    split; intros H l1 x l2 Heq Hlt; apply (H l1 x l2 Heq), (Hx l1 x l2 Heq), Hlt. }
  split.
  - intros (ds & c1 & H). apply rbind_ok in H as [[is t] [E1 H]]. pose proof (Hcand _ _ E1) as HF2.
    apply rbind_ok in H as [[] [E2 H]]. rstep E2. apply rbind_ok in H as [sc [E3 H]]. apply rbind_ok in H as [[ds' rem] [E4 _]].
    split_and!.
    + intros Hn. rewrite Hn in HF2. inversion HF2; subst. cbn in E2. lia.
    + apply Hsafe, Hsel. by eexists _, _.
    + unfold get_scoring_config in E3. destruct (c_score g) as [sc'|]; [|discriminate E3]. injection E3 as ->.
      exists sc. split; [done|]. apply (infos_ratable _ _ _ _ HF2). apply (distribute_deleg_iff is a t sc). by eexists _, _.
  - intros (H1 & H2 & sc & Hsc & H3). destruct (proj2 Hsel (proj2 Hsafe H2)) as (is & t & E1). rewrite E1. cbn [rbind].
    pose proof (Hcand _ _ E1) as HF2.
    destruct (N.of_nat (length is) =? 0) eqn:B3.
    { exfalso. apply H1. apply Forall2_length in HF2. destruct (candp pv dl k); [done|cbn [length] in HF2; lia]. }
    cbn [negb require rbind]. unfold get_scoring_config. rewrite Hsc. cbn [rbind].
    apply (infos_ratable _ _ _ _ HF2) in H3. destruct (proj2 (distribute_deleg_iff is a t sc) H3) as (ds & rem & ->). cbn. by eexists _, _.
Qed.

Lemma manager_iff u w : manager_b u w = true <-> u = w_owner w \/ u ∈ c_mgrs (w_cfg w).
Proof.
  unfold manager_b. rewrite orb_true_iff, existsb_exists. split.
  - intros [(x & Hx & E)|E]; [right|left; lia]. apply elem_of_list_In. assert (u = x) as -> by lia. done.
  - intros [->|H]; [right; apply N.eqb_refl|left]. exists u. split; [by apply elem_of_list_In|apply N.eqb_refl].
Qed.

Lemma batch_amount_fits o q a : batch_amount o q = Ok a -> fits_queue o q /\ a = default q o /\ MIN_EGLD <= a.
Proof.
  intros H. pose proof (batch_amount_inv _ _ _ H) as (K0 & K1 & K). change ONE_EGLD with MIN_EGLD in *. unfold fits_queue.
  change ONE_EGLD with MIN_EGLD. destruct o; cbn in *; subst; split_and!; try done; try lia.
Qed.

Lemma recs_listed w : Reachable w -> Forall (fun c => exists p, w_pv w !! c = Some p /\ caps_ok p) (w_dl w).
Proof.
  intros Hr. pose proof (lists w Hr) as L. pose proof (cfgok w Hr) as (_ & _ & HC).
  apply list.Forall_forall. intros c Hc. destruct (l_rec _ _ _ _ L c Hc) as [p Hp]. exists p. split; [done|exact (HC c p Hp)].
Qed.

Lemma delegate_pending_iff w u eg pays o :
  Reachable w -> N.of_nat (length (w_dl w)) < 2 ^ 32 ->
  let a := default (pending_egld w) o in
  snd (step w (OTx u eg pays (DelegatePending o))) = SOk
  <-> eg = 0 /\ pays = [] /\ operator u w /\ fits_queue o (pending_egld w)
      /\ candidates w a <> []
      /\ (forall l1 c l2, w_dl w = l1 ++ c :: l2 ->
            N.of_nat (length (List.filter (fun d => takes_more (rec w d)) l1)) < N.min (a / ONE_EGLD) (c_maxsel (w_cfg w)) ->
            within_cap (rec w c))
      /\ exists sc, c_score (w_cfg w) = Some sc /\ forall c, In c (candidates w a) -> ratable sc (rec w c).
Proof.
  intros Hr HU a. pose proof (cfgok w Hr) as (HM & _). pose proof (acct w Hr) as A.
  pose proof (recs_listed w Hr) as HF.
  split.
  - intros Hs. did_of w (OTx u eg pays (DelegatePending o)) Hs. clear Hs Ew Es.
    match goal with H : batch_amount _ _ = Ok ?x, H' : get_delegation_contract _ _ _ _ _ _ _ = _ |- _ =>
      destruct (batch_amount_fits _ _ _ H) as (K0 & K1 & K2); change (x = a) in K1; rewrite K1 in H', K2;
      pose proof (proj1 (get_deleg_iff _ _ _ _ _ _ K2 HM HU HF) (ex_intro _ _ (ex_intro _ _ H'))) as (G1 & G2 & G3) end.
    split_and!; try done. split_and!; try done. by apply manager_iff.
  - intros (-> & -> & Ho & Hq & G1 & G2 & G3). pose proof (operator_manager u w Ho) as Hm. destruct Ho as (Hu & _ & HI & Ha).
    assert (Hb : batch_choice o (pend (w_pool w))) by exact Hq.
    destruct (batch_choice_ok _ _ Hb) as [Eb [Hb1 Hb2]].
    assert (exists w', exec_tx u 0 [] (DelegatePending o) (set_log [] w) = Ok w') as [w' E]; [|unfold step; by rewrite E].
    unfold exec_tx. destruct (u =? SELF) eqn:B; [lia|]. cbn. replace (w_egld w + 0) with (w_egld w) by lia.
    unfold delegate_pending, cache_new, ls_token_id, is_state_active. cbn. rewrite HI. cbn. rewrite Ha. cbn.
    rewrite manager_step by exact Hm. cbn [rbind]. rewrite Eb. cbn [rbind].
    destruct (proj2 (get_deleg_iff (default (pend (w_pool w)) o) (w_dl w) (w_ul w) (w_pv w) (w_cfg w) (w_pool w) Hb1 HM HU HF)
               (conj G1 (conj G2 G3))) as (ds & c1 & E). rewrite E. cbn [rbind].
    pose proof (get_deleg_inv _ _ _ _ _ _ _ _ E) as (K1 & K2 & _ & K4 & ->).
    cbn [pend set_pend]. rewrite sub_ok by lia. cbn [rbind].
    rewrite delegate_batch_ok; [by eexists| |].
    + cbn. destruct A. cbn in *. unfold pending_egld in *. lia.
    + eapply Forall_impl; [|exact K2]. intros d (p & Hp & _). cbn. by eexists.
Qed.

(** ** Un-delegation *)
Definition hold (pv : gmap N prov) (l : list N) : list N := List.filter (fun c => 0 <? net_stake (recp pv c)) l.

Lemma sel_undel_iff l pv hard maxp avg rem n :
  0 < avg -> hard < U64 -> Forall (fun c => exists p, pv !! c = Some p /\ caps_ok p) l ->
  (exists is t, sel_undel_loop l pv hard maxp avg rem n = Ok (is, t))
  <-> forall l1 c l2, l = l1 ++ c :: l2 ->
      n + N.of_nat (length (hold pv l1)) < hard mod U32 ->
      ~ (maxp <= n + N.of_nat (length (hold pv l1)) /\ rem <= sumN (map (countp pv avg) (hold pv l1))) ->
      p_pun (recp pv c) <= p_staked (recp pv c) + p_pst (recp pv c).
Proof.
  intros Hav HU HF. revert rem n. induction HF as [|c l (p & Hp & Hcap) _ IH]; intros rem n; cbn [sel_undel_loop].
  - split; [intros _ [|] ? ? H; discriminate H|by eexists _, _].
  - assert (Hr : recp pv c = p) by (unfold recp; by rewrite Hp).
    assert (to_usize hard = Ok (hard mod U32)) as ->.
    { unfold to_usize. by destruct (hard <? U64) eqn:B; [|lia]. }
    cbn [rbind].
    assert (Hlen : forall l1, N.of_nat (length (hold pv (c :: l1))) = (if 0 <? net_stake p then 1 else 0) + N.of_nat (length (hold pv l1))).
    { intros l1. unfold hold. cbn [List.filter]. rewrite Hr. destruct (0 <? net_stake p); cbn [length]; lia. }
    assert (Hcnt : forall l1, sumN (map (countp pv avg) (hold pv (c :: l1)))
       = (if 0 <? net_stake p then counts_for avg p else 0) + sumN (map (countp pv avg) (hold pv l1))).
    { intros l1. unfold hold. cbn [List.filter]. rewrite Hr. destruct (0 <? net_stake p); cbn [map sumN]; [|lia].
      unfold countp at 1. rewrite Hr. lia. }
    destruct (hard mod U32 <=? n) eqn:B1.
    { split; [intros _ l1 x l2 _ Hlt; lia|by eexists _, _]. }
    destruct ((maxp <=? n) && (rem =? 0)) eqn:B2.
    { split; [|by eexists _, _]. intros _ l1 x l2 _ Hlt Hno. exfalso. apply Hno. lia. }
    unfold get_prov. rewrite Hp. cbn [rbind].
    assert (Htk : forall s, amount_to_take (net_stake p) avg = Ok s -> s = counts_for avg p).
    { intros s E3. unfold amount_to_take in E3. unfold counts_for. change ONE_EGLD with MIN_EGLD. rewrite (N.mul_comm 2).
      destruct (avg <=? net_stake p); [by injection E3|]. destruct (MIN_EGLD * 2 <? net_stake p); [|by injection E3]. rstep E3. done. }
    assert (Hc : (0 <? counts_for avg p) = (0 <? net_stake p)).
    { unfold counts_for. change ONE_EGLD with MIN_EGLD. pose proof MIN_pos.
      destruct (avg <=? net_stake p) eqn:X1; [|destruct (2 * MIN_EGLD <? net_stake p) eqn:X2];
        match goal with |- ?a = ?b => destruct a eqn:A, b eqn:B; lia end. }
    assert (Hrem : (if counts_for avg p <? rem then sub rem (counts_for avg p) else Ok 0) = Ok (rem - counts_for avg p)).
    { destruct (counts_for avg p <? rem) eqn:X; [by rewrite sub_ok by lia|]. f_equal. lia. }
    assert (Hstep : p_pun p <= p_staked p + p_pst p ->
      ((exists is t, (let* staked := avail p in let* take := amount_to_take staked avg in
        if 0 <? take then let* i := mk_info c p in
          let* rem' := if take <? rem then sub rem take else Ok 0 in
          let* '(is, t) := sel_undel_loop l pv hard maxp avg rem' (n + 1) in Ok (i :: is, staked + t)
        else sel_undel_loop l pv hard maxp avg rem n) = Ok (is, t))
      <-> exists is t, sel_undel_loop l pv hard maxp avg
            (if 0 <? net_stake p then rem - counts_for avg p else rem) (if 0 <? net_stake p then n + 1 else n) = Ok (is, t))).
    { intros Hle. assert (Ha : avail p = Ok (net_stake p)) by (unfold avail, net_stake; by rewrite sub_ok).
      rewrite Ha. cbn [rbind]. destruct (take_ok (net_stake p) avg) as (tk & E & _). rewrite E. cbn [rbind].
      apply Htk in E as ->. rewrite Hc. destruct (0 <? net_stake p); [|done].
      assert (exists i, mk_info c p = Ok i) as [i ->].
      { unfold mk_info. rewrite Ha. destruct (p_cap p =? 0) eqn:B; [cbn; by eexists|]. rewrite sub_ok by (destruct Hcap; lia). cbn. by eexists. }
      cbn [rbind]. rewrite Hrem. cbn [rbind]. split.
      - intros (is & t & H). apply rbind_ok in H as [[is' t'] [H _]]. by eexists _, _.
      - intros (is & t & ->). by eexists _, _. }
    split.
    + intros H. assert (Hle : p_pun p <= p_staked p + p_pst p).
      { destruct H as (is & t & H). apply rbind_ok in H as [s [E _]]. unfold avail in E. rstep E. done. }
      apply (Hstep Hle) in H. pose proof (proj1 (IH _ _) H) as H'. clear H. intros [|d l1] x l2 Heq Hlt Hno; injection Heq as <- ->; [by rewrite Hr|].
      rewrite Hlen in Hlt, Hno. rewrite Hcnt in Hno.
      apply (H' l1 x l2 eq_refl); destruct (0 <? net_stake p); lia.
    + intros H. assert (Hle : p_pun p <= p_staked p + p_pst p).
      { rewrite <- Hr. apply (H [] c l eq_refl); cbn; lia. }
      apply (Hstep Hle), IH. intros l1 x l2 -> Hlt Hno. apply (H (c :: l1) x l2 eq_refl).
      * rewrite Hlen. destruct (0 <? net_stake p); lia.
      * rewrite Hlen, Hcnt. destruct (0 <? net_stake p); lia.
Qed.

Lemma distribute_undel_loop_iff l A rem T :
  (exists ds rem', distribute_loop l A rem T false = Ok (ds, rem')) <-> Forall (fun i => MIN_EGLD <= i_avail i) l.
Proof.
  split; [|apply distribute_total_undel].
  revert rem. induction l as [|i l IH]; intros rem; cbn [distribute_loop]; [constructor|].
  intros (ds & rem' & H). apply rbind_ok in H as [a [E H]]. constructor.
  - unfold provider_amount in E. apply rbind_ok in E as [pr [_ E]]. apply rbind_ok in E as [lf [E _]]. rstep E. lia.
  - destruct (MIN_EGLD <=? a); [|eapply IH; by eexists _, _].
    apply rbind_ok in H as [r [_ H]]. apply rbind_ok in H as [sp [_ H]]. apply rbind_ok in H as [[x y] [H _]].
    eapply IH; by eexists _, _.
Qed.

Lemma distribute_undel_iff l A t sc :
  (exists ds rem, distribute_amount l A false t sc = Ok (ds, rem))
  <-> Forall (ratable_i sc) l /\ Forall (fun i => MIN_EGLD <= i_avail i) l.
Proof.
  rewrite <- (score_all_iff l false t sc). unfold distribute_amount.
  assert (HA : forall l' T, score_all l false t sc = Ok (l', T) ->
    (Forall (fun i => MIN_EGLD <= i_avail i) l' <-> Forall (fun i => MIN_EGLD <= i_avail i) l)).
  { intros l' T E. apply score_all_addr in E as [_ E].
    rewrite <- !(Forall_map i_avail (fun x => MIN_EGLD <= x)). by rewrite E. }
  split.
  - intros (ds & rem & H). apply rbind_ok in H as [[l' T] [E H]]. split; [by eexists _, _|].
    apply rbind_ok in H as [[x y] [H _]]. apply (HA _ _ E). eapply distribute_undel_loop_iff. by eexists _, _.
  - intros [(l' & T & E) HF]. rewrite E. cbn [rbind]. apply (HA _ _ E) in HF.
    destruct (distribute_total_undel l' A A T HF) as (ds & rem & E1). rewrite E1. cbn [rbind].
    destruct (rem =? 0); [by eexists _, _|]. apply remaining_total_undel.
    apply distribute_loop_inv in E1 as [Hp _]. pose proof (picks_forall _ _ _ (fun _ => True) Hp ltac:(by apply Forall_true)) as HQ.
    eapply Forall_impl; [|exact HQ]. cbn. intros d (i & _ & _ & _ & _ & -> & _). by eexists.
Qed.

Lemma infos_avail pv l is : Forall2 (is_info pv) l is ->
  (Forall (fun i => MIN_EGLD <= i_avail i) is <-> forall c, In c l -> MIN_EGLD <= net_stake (recp pv c)).
Proof.
  induction 1 as [|c i l is (p & Hp & Hi & Hle) _ IH]; [split; [by intros _ c []|constructor]|].
  assert (recp pv c = p) as Hr by (unfold recp; by rewrite Hp).
  assert (i_avail i = net_stake p) as He.
  { apply mk_info_inv in Hi as (_&_&_&_&_&Hi&_). unfold avail in Hi. rstep Hi. done. }
  rewrite List.Forall_cons_iff, IH, He. split.
  - intros [H1 H2] d [<-|Hd]; [by rewrite Hr|auto].
  - intros H. split; [rewrite <- Hr; apply H; by left|]. intros d Hd. apply H. by right.
Qed.

Definition cands (pv : gmap N prov) (ul : list N) (mx k a avg : N) (x : list N) : Prop :=
  exists r, hold pv ul = x ++ r /\ N.of_nat (length x) <= mx
  /\ (forall x1 c x2, x = x1 ++ c :: x2 -> ~ (k <= N.of_nat (length x1) /\ a <= sumN (map (countp pv avg) x1)))
  /\ (r = [] \/ N.of_nat (length x) = mx \/ k <= N.of_nat (length x) /\ a <= sumN (map (countp pv avg) x)).

Lemma app_prefix {A} (x y r s : list A) : x ++ r = y ++ s -> (length x < length y)%nat -> exists c z, y = x ++ c :: z /\ r = c :: z ++ s.
Proof.
  revert y. induction x as [|a x IH]; intros [|b y] H L; cbn in *; try lia.
  - subst. by exists b, y.
  - injection H as <- H. destruct (IH y H ltac:(lia)) as (c & z & -> & ->). by exists c, z.
Qed.

Lemma cands_uniq pv ul mx k a avg x y : cands pv ul mx k a avg x -> cands pv ul mx k a avg y -> x = y.
Proof.
  assert (W : forall x y, cands pv ul mx k a avg x -> cands pv ul mx k a avg y -> ~ (length x < length y)%nat).
  { intros x' y' (r & H1 & H2 & H3 & H4) (s & J1 & J2 & J3 & J4) L. rewrite H1 in J1.
    destruct (app_prefix _ _ _ _ J1 L) as (c & z & -> & ->). rewrite app_length in J2. cbn [length] in J2.
    destruct H4 as [H4|[H4|H4]]; [done|lia|]. exact (J3 x' c z eq_refl H4). }
  intros Hx Hy. pose proof (W x y Hx Hy). pose proof (W y x Hy Hx).
  destruct Hx as (r & H1 & _). destruct Hy as (s & H2 & _). rewrite H1 in H2.
  apply app_inj_1 in H2 as [-> _]; [done|lia].
Qed.

Lemma get_undel_iff a dl ul pv g c :
  MIN_EGLD <= a -> 1 <= c_maxsel g -> N.of_nat (length ul) < U32 ->
  Forall (fun c => exists p, pv !! c = Some p /\ caps_ok p) ul ->
  let k := N.min (N.min (a / MIN_EGLD) (c_maxsel g)) (N.of_nat (length ul)) in
  let avg := (a / k + a / c_maxsel g) / 2 in
  (exists ds c1, get_delegation_contract a false dl ul pv g c = Ok (ds, c1))
  <-> c_maxsel g < U64 /\ (forall l1 c l2, ul = l1 ++ c :: l2 -> N.of_nat (length (hold pv l1)) < c_maxsel g mod U32 ->
        ~ (k <= N.of_nat (length (hold pv l1)) /\ a <= sumN (map (countp pv avg) (hold pv l1))) ->
        p_pun (recp pv c) <= p_staked (recp pv c) + p_pst (recp pv c))
      /\ exists x sc, cands pv ul (c_maxsel g mod U32) k a avg x /\ x <> [] /\ c_score g = Some sc
         /\ forall c, In c x -> MIN_EGLD <= net_stake (recp pv c) /\ ratable sc (recp pv c).
Proof.
  intros Ha HM HU HF k avg. unfold get_delegation_contract.
  destruct ul as [|d0 ul0].
  { cbn. split; [intros (? & ? & H); discriminate H|]. intros (_ & _ & x & sc & (r & H & _) & Hn & _). exfalso. cbn in H.
    by destruct x. }
  set (ul := d0 :: ul0) in *.
  assert (Hpos : 0 < N.of_nat (length ul)) by (subst ul; cbn [length]; lia).
  destruct (N.of_nat (length ul) =? 0) eqn:B; [lia|]. cbn [negb require rbind]. unfold select_undel.
  destruct (maxp_ok a (c_maxsel g) (N.of_nat (length ul)) Ha HM Hpos HU) as (m & -> & Hm0 & _ & Hm3 & _ & Hm). fold k in Hm. subst m. cbn [rbind].
  unfold div. destruct (c_maxsel g =? 0) eqn:B1; [lia|]. cbn [rbind]. destruct (k =? 0) eqn:B2; [lia|]. cbn [rbind].
  change (2 =? 0) with false. cbn [rbind]. fold avg.
  assert (Havg : 0 < avg).
  { assert (MIN_EGLD <= a / k) by (apply N.div_le_lower_bound; lia).
    apply N.lt_le_trans with 1; [lia|]. apply N.div_le_lower_bound; [done|]. assert (H2 : 2 <= MIN_EGLD) by done.
    clear -H H2. generalize dependent (a / k). generalize (a / c_maxsel g). intros. lia. }
  pose proof (fun HU2 => sel_undel_iff ul pv (c_maxsel g) k avg a 0 Havg HU2 HF) as Hsel.
  assert (Hcand : forall is t, sel_undel_loop ul pv (c_maxsel g) k avg a 0 = Ok (is, t) ->
    exists x, cands pv ul (c_maxsel g mod U32) k a avg x /\ Forall2 (is_info pv) x is).
  { intros is t E. apply sel_undel_exact in E as (x & r & H1 & H2 & H3 & H4 & H5 & H6); [|done|lia].
    exists x. split; [|done]. exists r. rewrite !N.add_0_l in *. split_and!; try done. }
  split.
  - intros (ds & c1 & H). apply rbind_ok in H as [[is t] [E1 H]].
    apply rbind_ok in H as [[] [E2 H]]. rstep E2. apply rbind_ok in H as [sc [E3 H]]. apply rbind_ok in H as [[ds' rem] [E4 _]].
    assert (HU2 : c_maxsel g < U64).
    { unfold ul in E1. cbn [sel_undel_loop] in E1. apply rbind_ok in E1 as [h [E1 _]]. unfold to_usize in E1.
      destruct (c_maxsel g <? U64) eqn:X; [lia|discriminate E1]. }
    split; [done|]. split; [intros l1 d l2; apply (proj1 (Hsel HU2)); by eexists _, _|].
    destruct (Hcand _ _ E1) as (x & Hx & HF2). exists x, sc.
    unfold get_scoring_config in E3. destruct (c_score g) as [sc'|]; [|discriminate E3]. injection E3 as ->.
    destruct (proj1 (distribute_undel_iff is a t sc)) as [D1 D2]; [by eexists _, _|].
    split_and!; try done.
    + intros ->. inversion HF2; subst. cbn in E2. lia.
    + intros d Hd. split; [by apply (infos_avail _ _ _ HF2)|by apply (infos_ratable _ _ _ _ HF2)].
  - intros (HU2 & H1 & x & sc & Hx & Hne & Hsc & H2). destruct (proj2 (Hsel HU2) H1) as (is & t & E1). rewrite E1. cbn [rbind].
    destruct (Hcand _ _ E1) as (y & Hy & HF2). rewrite (cands_uniq _ _ _ _ _ _ _ _ Hy Hx) in HF2. clear y Hy.
    destruct (N.of_nat (length is) =? 0) eqn:B3.
    { exfalso. apply Hne. apply Forall2_length in HF2. destruct x; [done|cbn [length] in HF2; lia]. }
    cbn [negb require rbind]. unfold get_scoring_config. rewrite Hsc. cbn [rbind].
    destruct (proj2 (distribute_undel_iff is a t sc)) as (ds & rem & ->); [|cbn; by eexists _, _].
    split; [apply (infos_ratable _ _ _ _ HF2); intros d Hd; by apply H2|apply (infos_avail _ _ _ HF2); intros d Hd; by apply H2].
Qed.

Lemma undelegate_pending_iff w u eg pays o :
  Reachable w -> N.of_nat (length (w_ul w)) < 2 ^ 32 ->
  let a := default (unstake_queue w) o in
  let staked l := List.filter (fun c => 0 <? net_stake (rec w c)) l in
  snd (step w (OTx u eg pays (UnDelegatePending o))) = SOk
  <-> eg = 0 /\ pays = [] /\ operator u w /\ fits_queue o (unstake_queue w)
      /\ c_maxsel (w_cfg w) < 2 ^ 64
      /\ (forall l1 c l2, w_ul w = l1 ++ c :: l2 ->
            N.of_nat (length (staked l1)) < undel_limit w -> ~ enough w a (staked l1) ->
            p_pun (rec w c) <= p_staked (rec w c) + p_pst (rec w c))
      /\ exists l sc, undel_candidates w a l /\ l <> [] /\ c_score (w_cfg w) = Some sc
         /\ forall c, In c l -> ONE_EGLD <= net_stake (rec w c) /\ ratable sc (rec w c).
Proof.
  intros Hr HU a staked. pose proof (cfgok w Hr) as (HM & _).
  assert (HF : Forall (fun c => exists p, w_pv w !! c = Some p /\ caps_ok p) (w_ul w)).
  { pose proof (recs_listed w Hr) as HF. pose proof (lists w Hr) as L. rewrite list.Forall_forall in HF |- *.
    intros c Hc. apply HF. by apply (l_same _ _ _ _ L). }
  split.
  - intros Hs. did_of w (OTx u eg pays (UnDelegatePending o)) Hs. clear Hs Ew Es.
    match goal with H : batch_amount _ _ = Ok ?x, H' : get_delegation_contract _ _ _ _ _ _ _ = _ |- _ =>
      destruct (batch_amount_fits _ _ _ H) as (K0 & K1 & K2); change (x = a) in K1; rewrite K1 in H', K2;
      pose proof (proj1 (get_undel_iff _ _ _ _ _ _ K2 HM HU HF) (ex_intro _ _ (ex_intro _ _ H'))) as (G0 & G1 & G2) end.
    split_and!; try done. split_and!; try done. by apply manager_iff.
  - intros (-> & -> & Ho & Hq & G0 & G1 & G2). pose proof (operator_manager u w Ho) as Hm. destruct Ho as (Hu & _ & HI & Ha).
    assert (Hb : batch_choice o (pfu (w_pool w))) by exact Hq.
    destruct (batch_choice_ok _ _ Hb) as [Eb [Hb1 Hb2]].
    assert (exists w', exec_tx u 0 [] (UnDelegatePending o) (set_log [] w) = Ok w') as [w' E]; [|unfold step; by rewrite E].
    unfold exec_tx. destruct (u =? SELF) eqn:B; [lia|]. cbn. replace (w_egld w + 0) with (w_egld w) by lia.
    unfold un_delegate_pending, cache_new, ls_token_id, is_state_active. cbn. rewrite HI. cbn. rewrite Ha. cbn.
    rewrite manager_step by exact Hm. cbn [rbind]. rewrite Eb. cbn [rbind].
    destruct (proj2 (get_undel_iff (default (pfu (w_pool w)) o) (w_dl w) (w_ul w) (w_pv w) (w_cfg w) (w_pool w) Hb1 HM HU HF)
               (conj G0 (conj G1 G2))) as (ds & c1 & E). rewrite E. cbn [rbind].
    pose proof (get_undel_inv _ _ _ _ _ _ _ _ E) as (K1 & K2 & _ & K4 & ->).
    cbn [pfu set_pfu]. rewrite sub_ok by lia. cbn [rbind].
    rewrite undelegate_batch_ok; [by eexists|].
    eapply Forall_impl; [|exact K2]. intros d (p & Hp & _). cbn. by eexists.
Qed.
