(** L_Select.v — the batches in closed form. *)
From Verif Require Export L_More.

Lemma norm_spec v lo hi d r :
  norm_linear_clamp v lo hi d = Ok r -> r = if d then 10000 - rating v lo hi else rating v lo hi.
Proof.
  unfold norm_linear_clamp, rating. intros H. apply rbind_ok in H as [n [E H]].
  assert (n = if v <? lo then 0 else if hi <? v then 10000 else (v - lo) * 10000 / (hi - lo)) as ->.
  { destruct (v <? lo); [by injection E as <-|]. destruct (hi <? v); [by injection E as <-|].
    apply rbind_ok in E as [x [E1 E]]. apply rbind_ok in E as [y [E2 E]]. rstep E1. rstep E2. rstep E. done. }
  destruct d; rstep H; done.
Qed.

Lemma scaled_points b k c : scaled b k c = points b k c.
Proof. reflexivity. Qed.

Definition prov_score (b : bool) (sc : scfg) (t : N) (p : prov) : N := if b then deleg_score sc t p else undel_score sc t p.

Lemma score_spec i b t sc s c p :
  mk_info c p = Ok i -> score_of i b t sc = Ok s -> s = prov_score b sc t p.
Proof.
  intros Hi H. apply mk_info_inv in Hi as (_ & _ & _ & Ha & Hn & Hv & _).
  unfold avail in Hv. rstep Hv.
  unfold score_of in H. apply rbind_ok in H as [x [E1 H]]. apply rbind_ok in H as [y [E2 H]].
  apply rbind_ok in H as [z [E3 H]]. injection H as <-. unfold combine_scores.
  unfold node_score in E1. apply rbind_ok in E1 as [r1 [E1 E1']]. injection E1' as <-. apply norm_spec in E1.
  unfold apy_score in E2. apply rbind_ok in E2 as [r2 [E2 E2']]. injection E2' as <-. apply norm_spec in E2.
  rewrite Ha in E2. rewrite Hn in E1. subst r1 r2. unfold prov_score, deleg_score, undel_score.
  unfold stake_score in E3. unfold net_stake.
  match goal with H : i_avail i = _ |- _ => rewrite H in E3 end.
  destruct (0 <? t) eqn:B.
  - apply rbind_ok in E3 as [r3 [E3 E3']]. injection E3' as <-. apply norm_spec in E3. subst r3.
    assert (t =? 0 = false) as -> by lia. destruct b; cbn [negb]; reflexivity.
  - injection E3 as <-. assert (t =? 0 = true) as -> by lia. destruct b; cbn [negb]; reflexivity.
Qed.

(** ** Candidates *)
Definition is_info (pv : gmap N prov) (c : N) (i : sinfo) : Prop :=
  exists p, pv !! c = Some p /\ mk_info c p = Ok i /\ p_pun p <= p_staked p + p_pst p.

Definition recp (pv : gmap N prov) (c : addr) : prov := default (Prov 0 0 0 0 0 0 0 false 0 0) (pv !! c).

Lemma eligible_spec p b : prov_eligible p = Ok b -> b = takes_more p.
Proof.
  unfold prov_eligible, takes_more. destruct (p_elig p); cbn; [|by intros [= <-]].
  destruct (p_cap p =? 0); cbn; [by intros [= <-]|]. intros H. apply rbind_ok in H as [x [E H]].
  apply rbind_ok in H as [y [E1 H]]. unfold avail in E. rstep E. rstep E1. injection H as <-.
  unfold net_stake. change ONE_EGLD with MIN_EGLD.
  match goal with |- ?a = ?b => destruct a eqn:A, b eqn:B; lia end.
Qed.

Lemma sel_deleg_exact l pv maxp n is t :
  sel_deleg_loop l pv maxp n = Ok (is, t) -> n < maxp ->
  Forall2 (is_info pv) (firstn (N.to_nat (maxp - n)) (List.filter (fun c => takes_more (recp pv c)) l)) is
  /\ t = sumN (map i_avail is).
Proof.
  revert n is t. induction l as [|c r IH]; intros n is t H Hn; cbn [sel_deleg_loop] in H.
  - injection H as <- <-. cbn. rewrite firstn_nil. split; [constructor|done].
  - apply rbind_ok in H as [p [E1 H]]. rstep E1. apply rbind_ok in H as [e [E2 H]].
    apply eligible_spec in E2. cbn [List.filter]. unfold recp at 1. rewrite E1. cbn [default].
    change (id p) with p.
    rewrite <- E2. destruct e.
    + apply rbind_ok in H as [a [E3 H]]. apply rbind_ok in H as [i [E4 H]].
      assert (is_info pv c i) as Hi.
      { exists p. split_and!; try done. unfold avail in E3. rstep E3. done. }
      assert (i_avail i = a) as Hia by (apply mk_info_inv in E4 as (_&_&_&_&_&E4&_); congruence).
      replace (N.to_nat (maxp - n)) with (S (N.to_nat (maxp - (n + 1)))) by lia. cbn [firstn].
      destruct (n + 1 =? maxp) eqn:B.
      * injection H as <- <-. replace (maxp - (n + 1)) with 0 by lia. cbn. split; [by repeat constructor|lia].
      * apply rbind_ok in H as [[is' t'] [E5 H]]. injection H as <- <-.
        apply IH in E5 as [H1 ->]; [|lia]. split; [by constructor|cbn; lia].
    + destruct (n =? maxp) eqn:B; [lia|]. by apply IH.
Qed.

(** ** What is left over *)
Lemma leftover_deleg ds rem ds' rem' :
  remaining_loop ds rem true = Ok (ds', rem') ->
  damts ds' + rem' = damts ds + rem
  /\ forall d1 x d2, ds' = d1 ++ x :: d2 ->
     exists e1 y e2, ds = e1 ++ y :: e2 /\ length e1 = length d1 /\ d_addr x = d_addr y /\ d_amt y <= d_amt x
     /\ (match d_space y with Some s => d_amt x < d_amt y + s | None => True end -> rem' = 0 /\ d2 = e2).
Proof.
  revert rem ds' rem'. induction ds as [|d ds IH]; intros rem ds' rem' H; cbn [remaining_loop] in H.
  - injection H as <- <-. split; [done|]. intros [|] x d2; discriminate.
  - destruct (rem =? 0) eqn:B0.
    { injection H as <- <-. assert (rem = 0) as -> by lia. split; [done|]. intros d1 x d2 ->.
      exists d1, x, d2. split_and!; try done. }
    apply rbind_ok in H as [[d' rem1] [E H]]. apply rbind_ok in H as [[r' rem2] [E1 H]]. injection H as <- <-.
    assert (d_addr d' = d_addr d /\ d_amt d' + rem1 = d_amt d + rem /\ d_amt d <= d_amt d'
      /\ (match d_space d with Some s => d_amt d' < d_amt d + s | None => True end -> rem1 = 0)) as (K1 & K2 & K3 & K4).
    { cbn in E. destruct (d_space d) as [s|].
      - destruct (0 <? N.min s rem) eqn:B.
        + apply rbind_ok in E as [x [Ex E]]. rstep Ex. injection E as <- <-. cbn. split_and!; lia.
        + injection E as <- <-. cbn. split_and!; lia.
      - injection E as <- <-. cbn. split_and!; lia. }
    pose proof (IH _ _ _ E1) as [I1 I2]. split; [unfold damts in *; cbn; lia|].
    intros [|d0 d1] x d2 Heq.
    + injection Heq as <- <-. exists [], d, ds. split_and!; try done. intros Hx. specialize (K4 Hx). subst rem1.
      destruct ds as [|d3 ds]; cbn [remaining_loop] in E1.
      * by injection E1 as <- <-.
      * change (0 =? 0) with true in E1. by injection E1 as <- <-.
    + injection Heq as <- ->. destruct (I2 d1 x d2 eq_refl) as (e1 & y & e2 & -> & Hl & Hx & Hm & Hz).
      exists (d :: e1), y, e2. split_and!; try done. cbn. lia.
Qed.

(** ** Scored candidates *)
Definition scored (b : bool) (pv : gmap N prov) (sc : scfg) (t : N) (c : N) (i : sinfo) : Prop :=
  i_addr i = c /\ i_score i = prov_score b sc t (recp pv c) /\ i_avail i = net_stake (recp pv c)
  /\ p_pun (recp pv c) <= p_staked (recp pv c) + p_pst (recp pv c)
  /\ (p_cap (recp pv c) = 0 /\ i_space i = None
      \/ p_cap (recp pv c) <> 0 /\ p_total (recp pv c) <= p_cap (recp pv c)
         /\ i_space i = Some (p_cap (recp pv c) - p_total (recp pv c))).

Lemma scored_all b pv sc t l is l' T :
  Forall2 (is_info pv) l is -> score_all is b t sc = Ok (l', T) ->
  Forall2 (scored b pv sc t) l l' /\ T = sumN (map (fun c => prov_score b sc t (recp pv c)) l).
Proof.
  intros HF. revert l' T. induction HF as [|c i l is (p & Hp & Hi & Hle) _ IH]; intros l' T H; cbn [score_all] in H.
  - injection H as <- <-. split; [constructor|done].
  - apply rbind_ok in H as [x [E1 H]]. apply rbind_ok in H as [[r' t'] [E2 H]]. injection H as <- <-.
    apply IH in E2 as [H1 ->]. pose proof (score_spec _ _ _ _ _ _ _ Hi E1) as ->.
    assert (recp pv c = p) as Hr by (unfold recp; by rewrite Hp).
    split; [|cbn; by rewrite Hr]. constructor; [|done]. unfold scored. rewrite Hr.
    apply mk_info_inv in Hi as (H2 & _ & _ & _ & _ & H3 & H4). unfold avail in H3. rstep H3. cbn. done.
Qed.

Lemma infos_net pv l is : Forall2 (is_info pv) l is ->
  sumN (map i_avail is) = sumN (map (fun c => net_stake (recp pv c)) l).
Proof.
  induction 1 as [|c i l is (p & Hp & Hi & Hle) _ IH]; [done|]. cbn. rewrite IH. f_equal.
  assert (recp pv c = p) as -> by (unfold recp; by rewrite Hp).
  apply mk_info_inv in Hi as (_ & _ & _ & _ & _ & H3 & _). unfold avail in H3. rstep H3. done.
Qed.

Definition cutp (pv : gmap N prov) (sc : scfg) (t a T c : N) : N :=
  let s := deleg_score sc t (recp pv c) * a / T in
  if p_cap (recp pv c) =? 0 then s else N.min s (p_cap (recp pv c) - p_total (recp pv c)).

Lemma served_exact pv sc t a T l l' :
  Forall2 (scored true pv sc t) l l' ->
  map d_addr (served a T l') = List.filter (fun c => ONE_EGLD <=? cutp pv sc t a T c) l
  /\ Forall (fun d => d_amt d = cutp pv sc t a T (d_addr d)
       /\ d_space d = if p_cap (recp pv (d_addr d)) =? 0 then None
                      else Some (p_cap (recp pv (d_addr d)) - p_total (recp pv (d_addr d)) - cutp pv sc t a T (d_addr d)))
     (served a T l').
Proof.
  induction 1 as [|c i l l' (Ha & Hs & Hv & _ & Hc) _ [IH1 IH2]]; [split; [done|constructor]|].
  unfold served. cbn [flat_map List.filter]. fold (served a T l').
  assert (limited a T i = cutp pv sc t a T c) as Hl.
  { unfold limited, cutp, share. rewrite Hs. cbn. destruct Hc as [[-> ->]|(H1 & H2 & ->)]; [done|].
    destruct (p_cap (recp pv c) =? 0) eqn:B; [lia|done]. }
  change ONE_EGLD with MIN_EGLD in *. rewrite Hl.
  destruct (MIN_EGLD <=? cutp pv sc t a T c); cbn [app map]; [|done]. split; [by rewrite IH1, Ha|].
  constructor; [|done]. cbn. rewrite Ha. split; [done|].
  destruct Hc as [[-> ->]|(H1 & H2 & ->)]; [done|]. destruct (p_cap (recp pv c) =? 0) eqn:B; [lia|done].
Qed.

(** ** A delegation batch *)
Definition candp (pv : gmap N prov) (dl : list N) (k : N) : list N :=
  firstn (N.to_nat k) (List.filter (fun c => takes_more (recp pv c)) dl).

Lemma firstn_min {A} (k : N) (f : A -> bool) (l : list A) :
  firstn (N.to_nat (N.min k (N.of_nat (length l)))) (List.filter f l) = firstn (N.to_nat k) (List.filter f l).
Proof.
  assert (length (List.filter f l) <= length l)%nat.
  { clear. induction l as [|x l IH]; cbn; [lia|]. destruct (f x); cbn; lia. }
  destruct (N.le_gt_cases k (N.of_nat (length l))) as [L|L].
  - by rewrite N.min_l.
  - rewrite N.min_r by lia. rewrite !firstn_all2 by lia. done.
Qed.

Lemma deleg_batch_exact a dl ul pv g c ds c1 sc :
  get_delegation_contract a true dl ul pv g c = Ok (ds, c1) -> c_score g = Some sc ->
  N.of_nat (length dl) < U32 -> MIN_EGLD <= a -> 1 <= c_maxsel g ->
  let l := candp pv dl (N.min (a / MIN_EGLD) (c_maxsel g)) in
  let t := sumN (map (fun c => net_stake (recp pv c)) l) in
  let T := sumN (map (fun c => deleg_score sc t (recp pv c)) l) in
  0 < T ->
  map d_addr ds = List.filter (fun c => ONE_EGLD <=? cutp pv sc t a T c) l
  /\ Forall (fun d => cutp pv sc t a T (d_addr d) <= d_amt d) ds
  /\ forall d1 x d2, ds = d1 ++ x :: d2 ->
      p_cap (recp pv (d_addr x)) = 0 \/ d_amt x + p_total (recp pv (d_addr x)) < p_cap (recp pv (d_addr x)) ->
      damts ds = a /\ Forall (fun d => d_amt d = cutp pv sc t a T (d_addr d)) d2.
Proof.
  intros H Hsc HU Ha HM l t T HT. unfold get_delegation_contract in H.
  apply rbind_ok in H as [[] [E1 H]]. rstep E1.
  apply rbind_ok in H as [[sel total] [E2 H]]. unfold select_deleg in E2. apply rbind_ok in E2 as [maxp [E3 E2]].
  apply rbind_ok in H as [[] [_ H]]. apply rbind_ok in H as [sc' [E5 H]].
  unfold get_scoring_config in E5. rewrite Hsc in E5. injection E5 as <-.
  apply rbind_ok in H as [[ds1 rem] [E6 H]]. injection H as <- <-.
  destruct (maxp_ok a (c_maxsel g) (N.of_nat (length dl)) Ha HM) as (m & Em & Hm0 & _ & _ & _ & ->); [lia|done|].
  rewrite Em in E3. injection E3 as <-.
  apply sel_deleg_exact in E2 as [HF Ht]; [|lia]. rewrite N.sub_0_r, firstn_min in HF. fold (candp pv dl (N.min (a / MIN_EGLD) (c_maxsel g))) in HF.
  fold l in HF. rewrite (infos_net _ _ _ HF) in Ht. fold t in Ht. subst total.
  unfold distribute_amount in E6. apply rbind_ok in E6 as [[l' T'] [E7 E6]].
  pose proof (scored_all _ _ _ _ _ _ _ _ HF E7) as [HS HT']. cbn [prov_score] in HT'. fold T in HT'. subst T'.
  pose proof (score_all_inv _ _ _ _ _ _ E7) as [_ HTs].
  assert (sumN (map (share a T) l') <= a) as Hsh by (rewrite HTs; apply shares_sum; lia).
  destruct (distribute_shares a T l' a HT Hsh) as [Ed Hd]. rewrite Ed in E6. cbn [rbind] in E6.
  destruct (served_exact pv sc t a T l l' HS) as [S1 S2]. rewrite List.Forall_forall in S2.
  destruct (a - damts (served a T l') =? 0) eqn:B.
  - injection E6 as <- <-. split_and!; [done| |].
    + apply List.Forall_forall. intros d Hin. destruct (S2 d Hin) as [-> _]. lia.
    + intros d1 x d2 Heq _. split; [lia|]. apply List.Forall_forall. intros d Hin. apply S2. rewrite Heq. apply in_or_app. right. by right.
  - pose proof (leftover_deleg _ _ _ _ E6) as [L1 L2]. pose proof (remaining_more _ _ _ _ _ E6) as L3.
    assert (Hle : forall d, In d ds1 -> cutp pv sc t a T (d_addr d) <= d_amt d).
    { intros d Hin. apply in_split in Hin as (d1 & d2 & ->). destruct (L2 d1 d d2 eq_refl) as (e1 & y & e2 & Heq & _ & Hx & Hm & _).
      rewrite Hx. destruct (S2 y) as [<- _]; [|done]. rewrite Heq. apply in_or_app. right. by left. }
    split_and!; [by rewrite (more_addr _ _ L3)|by apply List.Forall_forall|].
    intros d1 x d2 Heq Hroom. destruct (L2 d1 x d2 Heq) as (e1 & y & e2 & Heq2 & _ & Hx & Hm & Hz).
    destruct (S2 y) as [Y1 Y2]; [rewrite Heq2; apply in_or_app; right; by left|].
    destruct Hz as [-> ->].
    + rewrite Y2. rewrite Hx in Hroom. destruct (p_cap (recp pv (d_addr y)) =? 0) eqn:B1; [done|].
      destruct Hroom as [Hroom|Hroom]; lia.
    + split; [lia|]. apply List.Forall_forall. intros d Hin. apply S2. rewrite Heq2. apply in_or_app. right. by right.
Qed.

Lemma delegate_split w u eg pays o sc :
  Reachable w -> snd (step w (OTx u eg pays (DelegatePending o))) = SOk ->
  c_score (w_cfg w) = Some sc -> N.of_nat (length (w_dl w)) < 2 ^ 32 ->
  let w' := fst (step w (OTx u eg pays (DelegatePending o))) in
  let a := default (pending_egld w) o in
  let l := candidates w a in
  0 < sumN (map (fun c => deleg_score sc (net_of w l) (rec w c)) l) ->
  exists b : list (addr * N),
    w_calls w' = w_calls w ++ map (fun x => KDeleg (fst x) (snd x)) b
    /\ map fst b = List.filter (fun c => ONE_EGLD <=? cut_share w sc a l c) l
    /\ (forall c x, In (c, x) b -> cut_share w sc a l c <= x)
    /\ (forall b1 c x b2, b = b1 ++ (c, x) :: b2 ->
        p_cap (rec w c) = 0 \/ x + p_total (rec w c) < p_cap (rec w c) ->
        sumN (map snd b) = a /\ forall d y, In (d, y) b2 -> y = cut_share w sc a l d).
Proof.
  intros Hr Hs Hsc HU w' a l HT. subst w'. pose proof (cfgok w Hr) as (HM & _).
  did_of w (OTx u eg pays (DelegatePending o)) Hs. clear Hs Ew Es.
  match goal with H : batch_amount _ _ = Ok ?x |- _ =>
    destruct (batch_amount_inv _ _ _ H) as (K0 & _ & K); assert (a = x) as Ha by (subst a; cbn in K; unfold pending_egld; by destruct o) end.
  match goal with H : get_delegation_contract _ _ _ _ _ _ _ = _ |- _ => rewrite <- Ha in H;
    destruct (deleg_batch_exact _ _ _ _ _ _ _ _ sc H Hsc HU ltac:(lia) HM HT) as (B1 & B2 & B3) end.
  cbn [w_pv set_log] in B1, B2, B3.
  exists (batch_list ds). cbn. split_and!.
  - f_equal. unfold batch_list. by rewrite map_map.
  - rewrite bl_fst. exact B1.
  - intros d x Hin. unfold batch_list in Hin. apply in_map_iff in Hin as (e & [= <- <-] & Hd).
    rewrite List.Forall_forall in B2. exact (B2 e Hd).
  - intros b1 d x b2 Heq Hroom. unfold batch_list in Heq.
    apply map_eq_app in Heq as (d1 & d2' & -> & <- & Heq). destruct d2' as [|e d2]; [discriminate Heq|].
    cbn in Heq. injection Heq as <- <- <-. destruct (B3 d1 e d2 eq_refl Hroom) as [X1 X2].
    rewrite bl_snd. split; [exact X1|]. intros f y Hin. apply in_map_iff in Hin as (e' & [= <- <-] & Hd).
    rewrite List.Forall_forall in X2. exact (X2 e' Hd).
Qed.

(** ** An un-delegation batch: the candidates *)
Definition countp (pv : gmap N prov) (avg : N) (c : N) : N := counts_for avg (recp pv c).

Lemma sel_undel_exact l pv hard maxp avg rem n is t :
  sel_undel_loop l pv hard maxp avg rem n = Ok (is, t) -> 0 < avg -> n <= hard mod U32 ->
  exists x r, List.filter (fun c => 0 <? net_stake (recp pv c)) l = x ++ r
  /\ Forall2 (is_info pv) x is /\ t = sumN (map i_avail is)
  /\ n + N.of_nat (length x) <= hard mod U32
  /\ (forall x1 c x2, x = x1 ++ c :: x2 -> ~ (maxp <= n + N.of_nat (length x1) /\ rem <= sumN (map (countp pv avg) x1)))
  /\ (r = [] \/ n + N.of_nat (length x) = hard mod U32
      \/ maxp <= n + N.of_nat (length x) /\ rem <= sumN (map (countp pv avg) x)).
Proof.
  intros H Hav. revert rem n is t H. induction l as [|c l IH]; intros rem n is t H Hn; cbn [sel_undel_loop] in H.
  - injection H as <- <-. exists [], []. cbn. split_and!; try done; [lia| |by left]. intros [|]; discriminate.
  - apply rbind_ok in H as [h [E0 H]].
    assert (h = hard mod U32) as ->.
    { unfold to_usize in E0. destruct (hard <? U64); [|done]. by injection E0 as <-. }
    destruct (hard mod U32 <=? n) eqn:B1.
    { injection H as <- <-. exists [], (List.filter (fun c => 0 <? net_stake (recp pv c)) (c :: l)). split_and!; try done; cbn [length N.of_nat]; [lia| |right; left; lia].
      intros [|]; discriminate. }
    destruct ((maxp <=? n) && (rem =? 0)) eqn:B2.
    { injection H as <- <-. exists [], (List.filter (fun c => 0 <? net_stake (recp pv c)) (c :: l)). split_and!; try done; cbn [length N.of_nat map sumN]; [lia| |right; right; lia].
      intros [|]; discriminate. }
    apply rbind_ok in H as [p [E1 H]]. rstep E1. apply rbind_ok in H as [s [E2 H]].
    apply rbind_ok in H as [tk [E3 H]].
    assert (Hr : recp pv c = p) by (unfold recp; by rewrite E1).
    assert (Hle : p_pun p <= p_staked p + p_pst p /\ s = net_stake p) by (unfold avail in E2; rstep E2; done).
    destruct Hle as [Hle ->].
    assert (tk = counts_for avg p) as ->.
    { unfold amount_to_take in E3. unfold counts_for. change ONE_EGLD with MIN_EGLD. rewrite (N.mul_comm 2).
      destruct (avg <=? net_stake p); [by injection E3|]. destruct (MIN_EGLD * 2 <? net_stake p); [|by injection E3]. rstep E3. done. }
    assert (Hc : (0 <? counts_for avg p) = (0 <? net_stake p)).
    { unfold counts_for. change ONE_EGLD with MIN_EGLD. pose proof MIN_pos.
      destruct (avg <=? net_stake p) eqn:X1; [|destruct (2 * MIN_EGLD <? net_stake p) eqn:X2];
        match goal with |- ?a = ?b => destruct a eqn:A, b eqn:B; lia end. }
    rewrite Hc in H. cbn [List.filter]. rewrite Hr. destruct (0 <? net_stake p) eqn:B3.
    + apply rbind_ok in H as [i [E4 H]]. apply rbind_ok in H as [rem' [E5 H]].
      apply rbind_ok in H as [[is' t'] [E6 H]]. injection H as <- <-.
      assert (Hrem : rem' = rem - counts_for avg p).
      { destruct (counts_for avg p <? rem) eqn:X; [rstep E5; done|injection E5 as <-; lia]. }
      apply IH in E6 as (x & r & H1 & H2 & H3 & H4 & H5 & H6); [|lia].
      assert (is_info pv c i) as Hi by (by exists p).
      assert (i_avail i = net_stake p) as Hia.
      { apply mk_info_inv in E4 as (_&_&_&_&_&E4&_). unfold avail in E4. rstep E4. done. }
      exists (c :: x), r. cbn [length map sumN app].
      assert (Hcp : countp pv avg c = counts_for avg p) by (unfold countp; by rewrite Hr). rewrite Hcp. split_and!.
      * by rewrite H1.
      * by constructor.
      * rewrite Hia. lia.
      * lia.
      * intros [|c' x1] d x2 Heq.
        -- cbn. lia.
        -- injection Heq as <- ->. cbn [length map sumN]. rewrite Hcp.
           specialize (H5 x1 d x2 eq_refl). lia.
      * destruct H6 as [->|[H6|H6]]; [by left|right; left; lia|right; right; lia].
    + apply IH in H; [done|lia].
Qed.

(** ** Un-delegation without dust *)
Lemma undel_shares_exact a T l rem :
  0 < T -> Forall (fun i => MIN_EGLD <= share a T i /\ share a T i + MIN_EGLD <= i_avail i) l ->
  sumN (map (share a T) l) <= rem ->
  distribute_loop l a rem T false
  = Ok (map (fun i => Dsel (i_addr i) (share a T i) (Some (i_avail i - share a T i))) l, rem - sumN (map (share a T) l)).
Proof.
  intros HT HF. revert rem. induction HF as [|i l [H1 H2] _ IH]; intros rem Hr; cbn [distribute_loop].
  - cbn. by rewrite N.sub_0_r.
  - cbn in Hr. assert (provider_amount i a rem T false = Ok (share a T i)) as ->.
    { unfold provider_amount. destruct (0 <? T) eqn:B; [|lia]. unfold div. destruct (T =? 0) eqn:B1; [lia|]. cbn [rbind].
      fold (share a T i).
      replace (N.max (N.min (N.min (share a T i) (i_avail i)) rem) MIN_EGLD) with (share a T i) by lia.
      rewrite L_Batch.sub_ok by lia. cbn [rbind]. destruct (i_avail i - share a T i <? MIN_EGLD) eqn:B2; [lia|]. f_equal. lia. }
    cbn [rbind]. destruct (MIN_EGLD <=? share a T i) eqn:B; [|lia]. rewrite !L_Batch.sub_ok by lia. cbn [rbind].
    rewrite IH by lia. cbn. f_equal. f_equal. lia.
Qed.

Lemma leftover_undel ds rem ds' rem' :
  remaining_loop ds rem false = Ok (ds', rem') -> 0 < rem -> rem < MIN_EGLD ->
  Forall (fun d => exists s, d_space d = Some s /\ MIN_EGLD <= s) ds ->
  (ds' = ds /\ Forall (fun d => forall s, d_space d = Some s -> s < rem + MIN_EGLD) ds)
  \/ exists d1 d d2, ds = d1 ++ d :: d2 /\ ds' = d1 ++ add_amount d rem :: d2
     /\ (exists s, d_space d = Some s /\ rem + MIN_EGLD <= s)
     /\ Forall (fun d => forall s, d_space d = Some s -> s < rem + MIN_EGLD) d1.
Proof.
  intros H Hp Hm HF. revert ds' rem' H. induction HF as [|d ds (s & Hs & Hsm) _ IH]; intros ds' rem' H; cbn [remaining_loop] in H.
  - injection H as <- <-. left. split; [done|constructor].
  - destruct (rem =? 0) eqn:B0; [lia|]. apply rbind_ok in H as [[d' rem1] [E H]]. apply rbind_ok in H as [[r' rem2] [E1 H]]. injection H as <- <-.
    cbn in E. rewrite Hs in E. cbn in E. apply rbind_ok in E as [lf [El E]]. rstep El.
    assert (N.min s rem = rem) as Hmin by lia. rewrite Hmin in E.
    destruct ((0 <? rem) && ((MIN_EGLD <=? s - rem) || (s =? rem))) eqn:B.
    + apply rbind_ok in E as [x [Ex E]]. rstep Ex. injection E as <- <-. right. exists [], d, ds. cbn.
      split_and!; [done| |exists s; split; [done|lia]|constructor].
      f_equal. rewrite N.sub_diag in E1. destruct ds; cbn [remaining_loop] in E1; [by injection E1|].
      change (0 =? 0) with true in E1. by injection E1.
    + injection E as <- <-. destruct (IH _ _ E1) as [[-> HF2]|(d1 & e & d2 & -> & -> & K1 & K2)].
      * left. split; [done|]. constructor; [|done]. intros s'. rewrite Hs. intros [= <-]. lia.
      * right. exists (d :: d1), e, d2. split_and!; try done. constructor; [|done]. intros s'. rewrite Hs. intros [= <-]. lia.
Qed.

Lemma shares_rest A l : sumN (map i_score l) <> 0 -> l <> [] ->
  A - sumN (map (share A (sumN (map i_score l))) l) < N.of_nat (length l).
Proof.
  intros HT Hl. set (T := sumN (map i_score l)) in *.
  assert (Hx : T * A < T * (sumN (map (share A T) l) + N.of_nat (length l))).
  { assert (forall k, k <> [] -> sumN (map i_score k) * A < T * (sumN (map (share A T) k) + N.of_nat (length k))) as HX.
    { induction k as [|i k IH]; [done|]. intros _. cbn [map sumN].
      assert (i_score i * A < T * (share A T i + 1)).
      { unfold share. pose proof (N.mul_succ_div_gt (i_score i * A) T HT) as K. rewrite <- N.add_1_r in K. exact K. }
      replace (N.of_nat (length (i :: k))) with (N.of_nat (length k) + 1) by (cbn [length]; lia).
      destruct k as [|j k]; [cbn; lia|]. specialize (IH ltac:(done)). lia. }
    exact (HX l Hl). }
  apply N.mul_lt_mono_pos_l in Hx; [|lia]. clearbody T. destruct l; [done|]. cbn [length] in *. lia.
Qed.

(** ** An un-delegation batch *)
Lemma infos_addr pv l is : Forall2 (is_info pv) l is -> map i_addr is = l.
Proof.
  induction 1 as [|c i l is (p & Hp & Hi & _) _ IH]; [done|]. cbn. rewrite IH.
  by apply mk_info_inv in Hi as [-> _].
Qed.

Lemma undel_batch_candidates a dl ul pv g c ds c1 :
  get_delegation_contract a false dl ul pv g c = Ok (ds, c1) ->
  N.of_nat (length ul) < U32 -> MIN_EGLD <= a -> 1 <= c_maxsel g ->
  let k := N.min (N.min (a / MIN_EGLD) (c_maxsel g)) (N.of_nat (length ul)) in
  let avg := (a / k + a / c_maxsel g) / 2 in
  let enough x := k <= N.of_nat (length x) /\ a <= sumN (map (countp pv avg) x) in
  exists x r is sc,
    List.filter (fun c => 0 <? net_stake (recp pv c)) ul = x ++ r
    /\ N.of_nat (length x) <= c_maxsel g mod U32
    /\ (forall x1 c x2, x = x1 ++ c :: x2 -> ~ enough x1)
    /\ (r = [] \/ N.of_nat (length x) = c_maxsel g mod U32 \/ enough x)
    /\ Forall2 (is_info pv) x is /\ is <> [] /\ c_score g = Some sc
    /\ exists rem, distribute_amount is a false (sumN (map (fun c => net_stake (recp pv c)) x)) sc = Ok (ds, rem).
Proof.
  intros H HU Ha HM k avg enough. unfold get_delegation_contract in H.
  apply rbind_ok in H as [[] [E1 H]]. rstep E1.
  apply rbind_ok in H as [[sel total] [E2 H]]. unfold select_undel in E2. apply rbind_ok in E2 as [maxp [E3 E2]].
  apply rbind_ok in E2 as [pa [E3a E2]]. apply rbind_ok in E2 as [pm [E3b E2]]. apply rbind_ok in E2 as [av [E3c E2]].
  apply rbind_ok in H as [[] [E4 H]]. rstep E4. apply rbind_ok in H as [sc [E5 H]].
  apply rbind_ok in H as [[ds1 rem] [E6 H]]. injection H as <- <-.
  destruct (maxp_ok a (c_maxsel g) (N.of_nat (length ul)) Ha HM) as (m & Em & Hm0 & _ & Hm3 & _ & Hmk); [lia|done|].
  rewrite Em in E3. injection E3 as <-. fold k in Hmk. subst m.
  unfold div in E3a, E3b, E3c. destruct (c_maxsel g =? 0) eqn:B1; [lia|]. injection E3a as <-.
  destruct (k =? 0) eqn:B2; [lia|]. injection E3b as <-. change (2 =? 0) with false in E3c. injection E3c as <-. fold avg in E2.
  assert (Havg : 0 < avg).
  { assert (MIN_EGLD <= a / k) by (apply N.div_le_lower_bound; lia).
    apply N.lt_le_trans with 1; [lia|]. apply N.div_le_lower_bound; [done|]. assert (H2 : 2 <= MIN_EGLD) by done.
    clear -H H2. generalize dependent (a / k). generalize (a / c_maxsel g). intros. lia. }
  apply sel_undel_exact in E2 as (x & r & H1 & H2 & H3 & H4 & H5 & H6); [|done|lia].
  rewrite N.add_0_l in *. exists x, r, sel, sc.
  unfold get_scoring_config in E5. destruct (c_score g) as [sc'|]; [|discriminate E5]. injection E5 as ->.
  split_and!; try done.
  - intros ->. cbn in E4. lia.
  - exists rem. rewrite <- (infos_net _ _ _ H2), <- H3. done.
Qed.

Lemma undel_candidates_picked w u eg pays o :
  Reachable w -> snd (step w (OTx u eg pays (UnDelegatePending o))) = SOk ->
  N.of_nat (length (w_ul w)) < 2 ^ 32 ->
  let w' := fst (step w (OTx u eg pays (UnDelegatePending o))) in
  let a := default (unstake_queue w) o in
  exists l, undel_candidates w a l
  /\ exists b : list (addr * N), w_calls w' = w_calls w ++ map (fun x => KUndel (fst x) (snd x)) b
  /\ map fst b `sublist_of` l
  /\ (forall sc, c_score (w_cfg w) = Some sc ->
      0 < sumN (map (fun c => undel_score sc (net_of w l) (rec w c)) l) ->
      (forall c, In c l -> ONE_EGLD <= undel_share w sc a l c /\ undel_share w sc a l c + ONE_EGLD <= net_stake (rec w c)) ->
      let r := a - sumN (map (undel_share w sc a l) l) in
      let fits c := undel_share w sc a l c + r + ONE_EGLD <= net_stake (rec w c) in
      (b = map (fun c => (c, undel_share w sc a l c)) l /\ (r = 0 \/ forall c, In c l -> ~ fits c))
      \/ exists l1 c l2, l = l1 ++ c :: l2 /\ fits c /\ (forall d, In d l1 -> ~ fits d)
         /\ b = map (fun c => (c, undel_share w sc a l c)) l1 ++ (c, undel_share w sc a l c + r)
                 :: map (fun c => (c, undel_share w sc a l c)) l2).
Proof.
  intros Hr Hs HU. cbn zeta. pose proof (cfgok w Hr) as (HM & _).
  did_of w (OTx u eg pays (UnDelegatePending o)) Hs. clear Hs Ew Es.
  match goal with H : batch_amount _ _ = Ok ?x |- _ =>
    destruct (batch_amount_inv _ _ _ H) as (K0 & _ & K);
    assert (default (unstake_queue w) o = x) as Ha by (cbn in K; unfold unstake_queue; by destruct o) end.
  rewrite Ha. match goal with H : get_delegation_contract _ _ _ _ _ _ _ = _ |- _ =>
    destruct (undel_batch_candidates _ _ _ _ _ _ _ _ H HU ltac:(lia) HM)
      as (x & r & is & sc & X1 & X2 & X3 & X4 & X5 & X6 & X7 & rem & X8) end.
  cbn [w_pv set_log w_ul w_cfg] in *. cbn in HM.
  exists x. split.
  { exists r. split_and!; [exact X1|exact X2|exact X3|exact X4]. }
  exists (batch_list ds). split_and!.
  - cbn. f_equal. unfold batch_list. by rewrite map_map.
  - rewrite bl_fst. pose proof (distribute_amount_inv _ _ _ _ _ _ _ X8) as (l' & P1 & P2 & _).
    rewrite <- (infos_addr _ _ _ X5), <- P2. eapply picks_sublist; [|exact P1]. by intros i d [? _].
  - intros sc' Hsc HT Hd. rewrite Hsc in X7. injection X7 as ->.
    unfold distribute_amount in X8. apply rbind_ok in X8 as [[l' T'] [E7 E6]].
    pose proof (scored_all _ _ _ _ _ _ _ _ X5 E7) as [HS HT']. cbn [prov_score] in HT'.
    pose proof (score_all_inv _ _ _ _ _ _ E7) as [_ HTs].
    set (sh := undel_share w sc a x) in *.
    assert (Hshare : Forall2 (fun c i => i_addr i = c /\ share a T' i = sh c /\ i_avail i = net_stake (rec w c)) x l').
    { subst sh. unfold undel_share. change (net_of w x) with (sumN (map (fun c => net_stake (recp (w_pv w) c)) x)).
      change (rec w) with (recp (w_pv w)). rewrite <- HT'. clear -HS.
      generalize dependent (sumN (map (fun c => net_stake (recp (w_pv w) c)) x)). intros t HS.
      induction HS as [|c i x l' (S1 & S2 & S3 & _) _ IH]; constructor; [|done].
      split_and!; [done| |done]. unfold share. by rewrite S2. }
    clearbody sh.
    assert (Hm : map (share a T') l' = map sh x).
    { clear -Hshare. induction Hshare as [|c i x l' (S1 & S2 & S3) _ IH]; [done|]. cbn. by rewrite S2, IH. }
    assert (HT0 : 0 < T') by (rewrite HT'; exact HT).
    assert (Hle : sumN (map (share a T') l') <= a) by (rewrite HTs; apply shares_sum; lia).
    assert (HF : Forall (fun i => MIN_EGLD <= share a T' i /\ share a T' i + MIN_EGLD <= i_avail i) l').
    { clear -Hshare Hd. induction Hshare as [|c i x l' (S1 & S2 & S3) _ IH]; constructor.
      - rewrite S2, S3. apply Hd. by left.
      - apply IH. intros d Hin. apply Hd. by right. }
    rewrite (undel_shares_exact a T' l' a HT0 HF Hle) in E6. cbn [rbind] in E6. rewrite Hm in E6.
    set (r0 := a - sumN (map sh x)) in *.
    set (ds0 := map (fun i => Dsel (i_addr i) (share a T' i) (Some (i_avail i - share a T' i))) l') in *.
    assert (Hds0 : ds0 = map (fun c => Dsel c (sh c) (Some (net_stake (rec w c) - sh c))) x).
    { subst ds0. clear -Hshare. induction Hshare as [|c i x l' (S1 & S2 & S3) _ IH]; [done|]. cbn. by rewrite S1, S2, S3, IH. }
    clearbody ds0. subst ds0.
    assert (Hbl : forall y, batch_list (map (fun c => Dsel c (sh c) (Some (net_stake (rec w c) - sh c))) y) = map (fun c => (c, sh c)) y).
    { intros y. unfold batch_list. by rewrite map_map. }
    destruct (r0 =? 0) eqn:B.
    + injection E6 as <- <-. left. split; [apply Hbl|left; lia].
    + assert (Hr0 : r0 < MIN_EGLD).
      { subst r0. rewrite <- Hm, HTs. assert (l' <> []) as Hne.
        { intros ->. apply Forall2_length in HS. apply Forall2_length in X5. destruct is; [done|]. cbn in *. lia. }
        pose proof (shares_rest a l' ltac:(lia) Hne) as Hrest.
        assert (length l' = length x) as Hlen by (symmetry; by apply Forall2_length in HS).
        rewrite Hlen in Hrest. assert (U32 < MIN_EGLD) by done. change (2 ^ 32) with U32 in *. lia. }
      apply leftover_undel in E6 as [[-> HF2]|(d1 & d & d2 & E8 & -> & (s & Hs1 & Hs2) & HF2)]; try lia.
      * left. split; [apply Hbl|]. right. intros e Hin. rewrite List.Forall_forall in HF2.
        specialize (HF2 (Dsel e (sh e) (Some (net_stake (rec w e) - sh e)))
                      ltac:(apply in_map_iff; by exists e) _ eq_refl). change ONE_EGLD with MIN_EGLD in *.
        specialize (Hd e Hin). lia.
      * right. apply map_eq_app in E8 as (l1 & l2' & -> & <- & E8). destruct l2' as [|e l2]; [discriminate E8|].
        cbn in E8. injection E8 as <- <-. cbn in Hs1. injection Hs1 as <-.
        exists l1, e, l2. change ONE_EGLD with MIN_EGLD in *. split_and!.
        -- done.
        -- specialize (Hd e ltac:(apply in_or_app; right; by left)). lia.
        -- intros d Hin. rewrite List.Forall_forall in HF2.
           specialize (HF2 (Dsel d (sh d) (Some (net_stake (rec w d) - sh d)))
                      ltac:(apply in_map_iff; by exists d) _ eq_refl).
           specialize (Hd d ltac:(apply in_or_app; by left)). lia.
        -- unfold batch_list. rewrite map_app. cbn. rewrite !map_map. done.
      * apply List.Forall_forall. intros d Hin. apply in_map_iff in Hin as (e & <- & He). cbn. eexists. split; [done|].
        specialize (Hd e He). change ONE_EGLD with MIN_EGLD in *. lia.
Qed.
