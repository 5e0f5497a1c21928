(** L_Power.v — what the admin of one provider can do to the delegation of
    everybody's deposits. *)
From Verif Require Export Spec21 L_Accept L_Last L_Find.

Lemma fits_amount o q : fits_queue o q -> ONE_EGLD <= default q o.
Proof. intros [H K]. destruct o; cbn; [|exact H]. by destruct K as [[K _] _]. Qed.

Lemma delegate_gets w v eg pays o :
  Reachable w -> N.of_nat (length (w_dl w)) < 2 ^ 32 ->
  snd (step w (OTx v eg pays (DelegatePending o))) = SOk
  <-> eg = 0 /\ pays = [] /\ operator v w /\ fits_queue o (pending_egld w)
      /\ exists ds c1, get_delegation_contract (default (pending_egld w) o) true (w_dl w) (w_ul w) (w_pv w) (w_cfg w) (w_pool w) = Ok (ds, c1).
Proof.
  intros Hr HU. rewrite (delegate_pending_iff w v eg pays o Hr HU).
  pose proof (cfgok w Hr) as (HM & _). pose proof (recs_listed w Hr) as HF.
  split; intros (H1 & H2 & H3 & H4 & H5); pose proof (fits_amount o _ H4) as H6.
  - split_and!; try done. apply get_deleg_iff; done.
  - split_and!; try done; apply get_deleg_iff in H5; try done; by destruct H5 as (? & ? & ?).
Qed.

Lemma sel_unseen l pv c p' maxp n :
  n < maxp -> (forall l1 l2, l = l1 ++ c :: l2 -> maxp <= n + takers pv l1) ->
  sel_deleg_loop l (<[c := p']> pv) maxp n = sel_deleg_loop l pv maxp n.
Proof.
  revert n. induction l as [|d l IH]; intros n Hn H; [done|]. cbn [sel_deleg_loop].
  destruct (N.eq_dec d c) as [->|Hne].
  { specialize (H [] l eq_refl). cbn in H. lia. }
  unfold get_prov. rewrite lookup_insert_ne by done. destruct (pv !! d) as [p|] eqn:Hp; [|done]. cbn [rbind].
  assert (Htk : forall l1, takers pv (d :: l1) = (if takes_more p then 1 else 0) + takers pv l1).
  { intros l1. unfold takers. cbn [List.filter]. unfold recp at 1. rewrite Hp. cbn [default from_option id].
    destruct (takes_more p); cbn [length]; lia. }
  destruct (prov_eligible p) as [b|] eqn:Eb; [|done]. cbn [rbind]. pose proof (eligible_spec _ _ Eb) as Hb.
  destruct b.
  - destruct (avail p); [|done]. cbn [rbind]. destruct (mk_info d p); [|done]. cbn [rbind].
    destruct (n + 1 =? maxp) eqn:B; [done|]. rewrite IH; [done|lia|]. intros l1 l2 ->. specialize (H (d :: l1) l2 eq_refl).
    rewrite Htk, <- Hb in H. lia.
  - destruct (n =? maxp) eqn:B; [done|]. apply IH; [done|]. intros l1 l2 ->. specialize (H (d :: l1) l2 eq_refl).
    rewrite Htk, <- Hb in H. lia.
Qed.

Definition changed (c : addr) (q : prov) (w : world) : world := set_pv (<[c := q]> (w_pv w)) (set_log [] w).

Lemma gets_unseen w a c q :
  1 <= c_maxsel (w_cfg w) -> ONE_EGLD <= a -> N.of_nat (length (w_dl w)) < 2 ^ 32 -> ~ in_reach w a c ->
  get_delegation_contract a true (w_dl w) (w_ul w) (<[c := q]> (w_pv w)) (w_cfg w) (w_pool w)
  = get_delegation_contract a true (w_dl w) (w_ul w) (w_pv w) (w_cfg w) (w_pool w).
Proof.
  intros HM Ha HU Hn. unfold get_delegation_contract. destruct (N.of_nat (length (w_dl w)) =? 0) eqn:B; [done|].
  cbn [negb require rbind]. unfold select_deleg.
  destruct (maxp_ok a (c_maxsel (w_cfg w)) (N.of_nat (length (w_dl w))) Ha HM ltac:(lia) HU) as (m & -> & Hm0 & _ & _ & _ & Hm). cbn [rbind].
  rewrite sel_unseen; [done|lia|]. intros l1 l2 Hl.
  assert (~ takers (w_pv w) l1 < spread w a) as K. { intros K. apply Hn. exists l1, l2. split; [done|exact K]. }
  unfold spread in K. change ONE_EGLD with MIN_EGLD in K. lia.
Qed.

Lemma change_step w u c p total cap nodes apy elig :
  w_pv w !! c = Some p ->
  snd (step w (OTx u 0 [] (ChangeParams c total cap nodes apy elig))) = SOk ->
  fst (step w (OTx u 0 [] (ChangeParams c total cap nodes apy elig))) = changed c (with_params total cap nodes apy elig p) w.
Proof.
  intros Hp Hs. did_of w (OTx u 0 [] (ChangeParams c total cap nodes apy elig)) Hs.
  match goal with H : w_pv (set_log [] w) !! c = Some _ |- _ => cbn in H; rewrite Hp in H; injection H as <- end. done.
Qed.

Lemma change_ok w c p total cap nodes apy elig :
  Reachable w -> w_pv w !! c = Some p -> p_admin p <> SELF -> total <= cap \/ cap = 0 -> nodes < 2 ^ 64 -> apy < 2 ^ 64 ->
  snd (step w (OTx (p_admin p) 0 [] (ChangeParams c total cap nodes apy elig))) = SOk.
Proof.
  intros Hr Hp Hu Hc Hn Hy. apply accepted_iff; [done|done|]. cbn. split; [done|]. split; [done|]. split; [|done].
  exists p. split; [done|by left].
Qed.

Section change.
  Context (w : world) (c : addr) (q : prov).

  Lemma rec_other d : d <> c -> rec (changed c q w) d = rec w d.
  Proof. intros H. unfold rec. cbn. by rewrite lookup_insert_ne. Qed.
  Lemma rec_this : rec (changed c q w) c = q.
  Proof. unfold rec. cbn. by rewrite lookup_insert. Qed.

  Lemma takers_other l : c ∉ l -> takers_of (changed c q w) l = takers_of w l.
  Proof.
    intros H. unfold takers_of. do 2 f_equal. induction l as [|d l IH]; [done|]. apply not_elem_of_cons in H as [H1 H2].
    cbn [List.filter]. rewrite rec_other by done. rewrite IH by done. done.
  Qed.

  Lemma takers_without l : takers_of w (List.filter (fun e => negb (e =? c)) l) <= takers_of (changed c q w) l.
  Proof.
    unfold takers_of. assert (forall n m : nat, (n <= m)%nat -> N.of_nat n <= N.of_nat m) as K by lia. apply K. clear K. induction l as [|d l IH]; [done|]. cbn [List.filter].
    destruct (d =? c) eqn:B; cbn [negb].
    - destruct (takes_more _); cbn [length]; lia.
    - cbn [List.filter]. rewrite rec_other by lia. destruct (takes_more _); cbn [length]; lia.
  Qed.
End change.

Section blocks.
  Context (w : world) (c : addr) (p : prov).
  Context (Hr : Reachable w) (HU : N.of_nat (length (w_dl w)) < 2 ^ 32) (Hp : w_pv w !! c = Some p).

  (** in reach and over its cap *)
  Lemma over_blocks q v eg pays o :
    Reachable (changed c q w) -> in_reach w (default (pending_egld w) o) c -> ~ within_cap q ->
    snd (step (changed c q w) (OTx v eg pays (DelegatePending o))) <> SOk.
  Proof.
    intros Hr' (l1 & l2 & Hl & Hk) Hq Hs. apply delegate_pending_iff in Hs; [|done|done].
    destruct Hs as (_ & _ & _ & _ & _ & Hs & _). specialize (Hs l1 c l2 Hl). apply Hq. rewrite <- (rec_this w c q). apply Hs.
    change (takers_of (changed c q w) l1 < spread w (default (pending_egld w) o)).
    rewrite takers_other; [done|]. pose proof (l_dl _ _ _ _ (lists w Hr)) as Hnd. rewrite Hl in Hnd.
    apply list.NoDup_app in Hnd as (_ & Hnd & _). intros K. by apply (Hnd c K); left.
  Qed.

  Lemma can_block v eg pays o :
    p_admin p <> SELF -> 1 < net_stake p -> in_reach w (default (pending_egld w) o) c ->
    let x := OTx (p_admin p) 0 [] (ChangeParams c 0 1 0 0 true) in
    snd (step w x) = SOk /\ snd (step (fst (step w x)) (OTx v eg pays (DelegatePending o))) <> SOk.
  Proof.
    intros Hu Hn Hi x. assert (Hs : snd (step w x) = SOk) by (apply change_ok; try done; lia). split; [done|].
    assert (E : fst (step w x) = _) by (apply change_step; done). pose proof (reach_step w x Hr) as Hr'. rewrite E in *.
    apply over_blocks; [done|done|]. unfold within_cap, net_stake in *. cbn. intros [K|[K1 [K|K]]]; try discriminate K. lia.
  Qed.

  (** out of reach *)
  Lemma unseen_same q v eg pays o :
    Reachable (changed c q w) -> ~ in_reach w (default (pending_egld w) o) c ->
    snd (step (changed c q w) (OTx v eg pays (DelegatePending o))) = SOk
    <-> snd (step w (OTx v eg pays (DelegatePending o))) = SOk.
  Proof.
    intros Hr' Hn. pose proof (cfgok w Hr) as (HM & _). rewrite !delegate_gets by done.
    change (pending_egld (changed c q w)) with (pending_egld w). change (operator v (changed c q w)) with (operator v w).
    split; intros (H1 & H2 & H3 & H4 & H5); split_and!; try done; pose proof (fits_amount o _ H4) as H6.
    - rewrite <- (gets_unseen w _ c q) by done. exact H5.
    - rewrite <- (gets_unseen w _ c q) in H5 by done. exact H5.
  Qed.

  Lemma listed_once l1 l2 l3 l4 : w_dl w = l1 ++ c :: l2 -> w_dl w = l3 ++ c :: l4 -> l1 = l3.
  Proof.
    intros H1 H2. pose proof (l_dl _ _ _ _ (lists w Hr)) as Hnd. rewrite H2 in H1, Hnd. clear H2.
    revert l3 H1 Hnd. induction l1 as [|x l1 IH]; intros [|y l3] H1 Hnd; cbn in H1, Hnd; [done|..].
    - injection H1 as -> _. apply list.NoDup_cons in Hnd as [Hnd _]. exfalso. apply Hnd, elem_of_app. right. by left.
    - injection H1 as <- ->. apply list.NoDup_cons in Hnd as [Hnd _]. exfalso. apply Hnd, elem_of_app. right. by left.
    - injection H1 as -> H1. f_equal. apply (IH l3); [done|]. by apply list.NoDup_cons in Hnd as [_ ?].
  Qed.

  Lemma reach_dec a : in_reach w a c \/ ~ in_reach w a c.
  Proof.
    destruct (decide (c ∈ w_dl w)) as [Hc|Hc].
    - apply elem_of_list_split in Hc as (l1 & l2 & Hl). destruct (takers_of w l1 <? spread w a) eqn:B.
      + left. exists l1, l2. split; [done|lia].
      + right. intros (l3 & l4 & Hl' & K). rewrite <- (listed_once _ _ _ _ Hl Hl') in K. lia.
    - right. intros (l1 & l2 & Hl & _). apply Hc. rewrite Hl. apply elem_of_app. right. by left.
  Qed.

  Lemma others_work q v o sc :
    Reachable (changed c q w) -> c_score (w_cfg w) = Some sc -> distinct_bounds sc ->
    snd (step w (OTx v 0 [] (DelegatePending o))) = SOk ->
    within_cap q -> others_suffice w (default (pending_egld w) o) c ->
    snd (step (changed c q w) (OTx v 0 [] (DelegatePending o))) = SOk.
  Proof.
    intros Hr' Hsc [Hd1 Hd2] Hs Hq [(d & Hdc & Hd & Ht) Ho]. apply delegate_pending_iff in Hs; [|done|done].
    pose proof (cfgok w Hr) as (HM & _).
    destruct Hs as (_ & _ & H3 & H4 & _). pose proof (fits_amount o _ H4) as H6. apply delegate_pending_iff; [done|done|].
    split_and!; try done.
    - unfold candidates. intros K. assert (In d (List.filter (fun e => takes_more (rec (changed c q w) e)) (w_dl w))) as Hin.
      { apply filter_In. split; [done|]. by rewrite rec_other. }
      change (w_dl (changed c q w)) with (w_dl w) in K. change (c_maxsel (w_cfg (changed c q w))) with (c_maxsel (w_cfg w)) in K.
      change (pending_egld (changed c q w)) with (pending_egld w) in K.
      destruct (List.filter _ _) as [|x l]; [destruct Hin|].
      assert (1 <= default (pending_egld w) o `div` ONE_EGLD). { apply N.div_le_lower_bound; [done|lia]. }
      destruct (N.to_nat (N.min (default (pending_egld w) o `div` ONE_EGLD) (c_maxsel (w_cfg w)))) eqn:B; [lia|discriminate K].
    - intros l1 e l2 Hl Hk. destruct (N.eq_dec e c) as [->|Hne]; [by rewrite rec_this|]. rewrite rec_other by done.
      apply (Ho l1 e l2 Hl Hne). pose proof (takers_without w c q l1) as K.
      change (takers_of (changed c q w) l1 < spread w (default (pending_egld w) o)) in Hk. lia.
    - exists sc. split; [done|]. intros e _. split; intros [K1 K2]; [apply Hd1|apply Hd2]; congruence.
  Qed.

  Lemma off_blocks q v o :
    Reachable (changed c q w) -> p_elig q = false -> c_maxsel (w_cfg w) <> 0 ->
    snd (step (changed c q w) (OTx v 0 [] (DelegatePending o))) = SOk -> others_suffice w (default (pending_egld w) o) c.
  Proof.
    intros Hr' He HM Hs. apply delegate_pending_iff in Hs; [|done|done]. destruct Hs as (_ & _ & _ & _ & H5 & H6 & _).
    change (w_dl (changed c q w)) with (w_dl w) in *. change (pending_egld (changed c q w)) with (pending_egld w) in *. split.
    - unfold candidates in H5. change (w_dl (changed c q w)) with (w_dl w) in *.
      destruct (List.filter _ _) as [|d l] eqn:E; [by rewrite firstn_nil in H5|].
      assert (In d (List.filter (fun e => takes_more (rec (changed c q w) e)) (w_dl w))) as Hin by (rewrite E; by left).
      apply filter_In in Hin as [Hin Ht]. exists d.
      assert (d <> c) as Hne. { intros ->. rewrite rec_this in Ht. unfold takes_more in Ht. by rewrite He in Ht. }
      rewrite rec_other in Ht by done. done.
    - intros l1 d l2 Hl Hne Hk. rewrite <- (rec_other w c q) by done. apply (H6 l1 d l2 Hl).
      assert (takers_of (changed c q w) l1 = takers_of w (List.filter (fun e => negb (e =? c)) l1)) as K.
      { clear -He. unfold takers_of. do 2 f_equal. induction l1 as [|e l IH]; [done|]. cbn [List.filter].
        destruct (e =? c) eqn:B; cbn [negb].
        - assert (e = c) as -> by lia. rewrite rec_this. unfold takes_more at 1. rewrite He. exact IH.
        - cbn [List.filter]. rewrite rec_other by lia. rewrite IH. done. }
      change (takers_of (changed c q w) l1 < spread w (default (pending_egld w) o)). lia.
  Qed.

  Lemma unrated_blocks q v o sc :
    Reachable (changed c q w) -> c_score (w_cfg w) = Some sc -> ~ ratable sc q -> takes_more q = true ->
    in_reach w (default (pending_egld w) o) c ->
    snd (step (changed c q w) (OTx v 0 [] (DelegatePending o))) <> SOk.
  Proof.
    intros Hr' Hsc Hq Ht (l1 & l2 & Hl & Hk) Hs. apply delegate_pending_iff in Hs; [|done|done].
    destruct Hs as (_ & _ & _ & _ & _ & _ & sc' & Hsc' & Hs). cbn in Hsc'. rewrite Hsc in Hsc'. injection Hsc' as <-.
    apply Hq. rewrite <- (rec_this w c q). apply Hs.
    assert (takers_of (changed c q w) l1 < spread w (default (pending_egld w) o)) as K.
    { rewrite takers_other; [done|]. pose proof (l_dl _ _ _ _ (lists w Hr)) as Hnd. rewrite Hl in Hnd.
      apply list.NoDup_app in Hnd as (_ & Hnd & _). intros K. by apply (Hnd c K); left. }
    unfold candidates. change (w_dl (changed c q w)) with (w_dl w). rewrite Hl, List.filter_app. cbn [List.filter].
    rewrite rec_this, Ht. rewrite firstn_app. apply in_or_app. right.
    change (c_maxsel (w_cfg (changed c q w))) with (c_maxsel (w_cfg w)). change (pending_egld (changed c q w)) with (pending_egld w).
    unfold takers_of, spread in K. destruct (_ - _)%nat eqn:B; [lia|]. by left.
  Qed.
End blocks.

Lemma score_small w sc : Reachable w -> c_score (w_cfg w) = Some sc ->
  k_min_nodes sc < 2 ^ 64 /\ k_min_apy sc < 2 ^ 64.
Proof.
  intros Hr. revert sc. induction Hr as [? ? ? ? ? ? ? ? ? ? Hd|w o Hr IH]; intros sc Hsc.
  - unfold deploy in Hd. apply rbind_ok in Hd as [[] [_ Hd]]. apply rbind_ok in Hd as [g [E1 Hd]]. rstep Hd.
    unfold init in E1. repeat (apply rbind_ok in E1 as [[] [_ E1]]). rstep E1. discriminate Hsc.
  - rewrite (told_scoring _ _ _ _ (step_did w o)) in Hsc. cbn [w_cfg set_log] in Hsc.
    destruct (snd (step w o)) eqn:Es; try by apply IH.
    destruct (said_scoring (set_log [] w) o) as [x|] eqn:E; [|by apply IH]. subst x. unfold said_scoring in E.
    destruct (from_charge _ o) as [ep|] eqn:F; [|discriminate E]. destruct ep; try discriminate E. injection E as ->.
    apply from_charge_inv in F as (u & a & -> & _). apply accepted_iff in Es; [|done|done]. cbn in Es.
    destruct Es as (_ & _ & _ & Es & _). inversion Es as [|? ? N1 Es1]. inversion Es1 as [|? ? _ Es2]. inversion Es2 as [|? ? N2 _]. done.
Qed.

Lemma power w v o c p sc :
  Reachable w -> N.of_nat (length (w_dl w)) < 2 ^ 32 -> w_pv w !! c = Some p -> c_score (w_cfg w) = Some sc ->
  snd (step w (OTx v 0 [] (DelegatePending o))) = SOk ->
  (exists total cap nodes apy elig,
     let x := OTx (p_admin p) 0 [] (ChangeParams c total cap nodes apy elig) in
     snd (step w x) = SOk /\ snd (step (fst (step w x)) (OTx v 0 [] (DelegatePending o))) <> SOk)
  <-> p_admin p <> SELF /\ in_reach w (default (pending_egld w) o) c
      /\ (1 < net_stake p \/ p_staked p + p_pst p < p_pun p \/ ~ others_suffice w (default (pending_egld w) o) c \/ ~ distinct_bounds sc).
Proof.
  intros Hr HU Hp Hsc Hs. split.
  - intros (total & cap & nodes & apy & elig & Hx & Hb). set (x := OTx (p_admin p) _ _ _) in *.
    assert (p_admin p <> SELF) as Hu. { apply accepted_iff in Hx; [|done|done]. by destruct Hx as [? _]. }
    assert (E : fst (step w x) = _) by (apply change_step; done). pose proof (reach_step w x Hr) as Hr'. rewrite E in Hr', Hb. clear E Hx x.
    split; [done|]. split.
    { destruct (reach_dec w c Hr HU (default (pending_egld w) o)) as [K|K]; [done|]. exfalso. apply Hb. by apply unseen_same. }
    destruct (1 <? net_stake p) eqn:B1; [left; lia|]. right. destruct (p_staked p + p_pst p <? p_pun p) eqn:B2; [left; lia|]. right.
    destruct (N.eq_dec (k_min_nodes sc) (k_max_nodes sc)) as [E1|E1]; [right; intros [K _]; by apply K|].
    destruct (N.eq_dec (k_min_apy sc) (k_max_apy sc)) as [E2|E2]; [right; intros [_ K]; by apply K|].
    left. intros Ho. apply Hb. eapply others_work; try done. unfold within_cap, net_stake in *. cbn.
    destruct elig; [|by left]. right. lia.
  - intros (Hu & Hi & H).
    assert (K : forall total cap nodes apy elig, total <= cap \/ cap = 0 -> nodes < 2 ^ 64 -> apy < 2 ^ 64 ->
      (Reachable (changed c (with_params total cap nodes apy elig p) w) ->
       snd (step (changed c (with_params total cap nodes apy elig p) w) (OTx v 0 [] (DelegatePending o))) <> SOk) ->
      exists total cap nodes apy elig,
       let x := OTx (p_admin p) 0 [] (ChangeParams c total cap nodes apy elig) in
       snd (step w x) = SOk /\ snd (step (fst (step w x)) (OTx v 0 [] (DelegatePending o))) <> SOk).
    { intros total cap nodes apy elig G1 G2 G3 G. exists total, cap, nodes, apy, elig. intros x.
      assert (Hx : snd (step w x) = SOk) by (by apply change_ok). split; [done|].
      assert (E : fst (step w x) = _) by (apply change_step; done). pose proof (reach_step w x Hr) as Hr'. rewrite E in *. by apply G. }
    pose proof (cfgok w Hr) as (HM & _).
    destruct (1 <? net_stake p) eqn:B1.
    { apply (K 0 1 0 0 true); [lia..|]. intros Hr'. apply over_blocks; [done..|]. unfold within_cap, net_stake in *. cbn. intros [G|[G1 [G|G]]]; try discriminate G; lia. }
    destruct (p_staked p + p_pst p <? p_pun p) eqn:B2.
    { apply (K 0 0 0 0 true); [lia..|]. intros Hr'. apply over_blocks; [done..|]. unfold within_cap. cbn. intros [G|[G1 G]]; [discriminate G|lia]. }
    destruct H as [H|[H|[H|H]]]; [lia|lia| |].
    + apply (K 0 0 0 0 false); [lia..|]. intros Hr' Hs'. apply H. eapply off_blocks; [..|exact Hs']; try done. lia.
    + destruct (score_small w sc Hr Hsc) as [N1 N2].
      destruct (N.eq_dec (k_min_nodes sc) (k_max_nodes sc)) as [E1|E1].
      { apply (K 0 0 (k_min_nodes sc) 0 true); [lia..|]. intros Hr'. eapply unrated_blocks; try done. intros [G _]. by apply G. }
      destruct (N.eq_dec (k_min_apy sc) (k_max_apy sc)) as [E2|E2]; [|exfalso; by apply H].
      apply (K 0 0 0 (k_min_apy sc) true); [lia..|]. intros Hr'. eapply unrated_blocks; try done. intros [_ G]. by apply G.
Qed.

(** ** It stays blocked *)
Definition stuck (c : addr) (w : world) : Prop :=
  exists r p, w_dl w = c :: r /\ w_pv w !! c = Some p /\ p_elig p = true /\ p_cap p <> 0 /\ p_cap p < net_stake p.

Lemma stuck_no_batch c w u eg pays o : stuck c w -> snd (step w (OTx u eg pays (DelegatePending o))) <> SOk.
Proof. intros (r & p & H1 & H2 & H3 & H4 & H5). eapply blocked_first; done. Qed.

Lemma stuck_step c w o : stuck c w -> leaves_alone c w o -> stuck c (fst (step w o)).
Proof.
  intros Hs Ha. pose proof (fun u eg pays x => stuck_no_batch c w u eg pays x Hs) as Hno.
  destruct Hs as (r & p & H1 & H2 & H3 & H4 & H5).
  pose proof (step_did w o) as D. remember (fst (step w o)) as w' eqn:Ew. remember (snd (step w o)) as s eqn:Es.
  assert (K : forall l q, w_dl w' = l -> w_pv w' !! c = q -> (exists r', l = c :: r') -> (exists a, q = Some (set_p_admin a p)) -> stuck c w').
  { intros l q E1 E2 [r' E3] [a E4]. exists r', (set_p_admin a p). subst l q. split_and!; try done; congruence. }
  assert (K0 : exists a, Some p = Some (set_p_admin a p)) by (exists (p_admin p); by destruct p).
  destruct D; subst_pools; cbn in Ha;
    try match goal with H : ust_maybe _ _ _ _ |- _ => um_clean end;
    try match goal with H : exec_call _ _ _ = _ |- _ => apply exec_call_frame in H as [? ->] end;
    try (exfalso; exact Ha);
    try (match goal with H : nth_error (w_res _) _ = Some _ |- _ => cbn in H; rewrite H in Ha; cbn in Ha end);
    try (eapply K; [reflexivity|reflexivity|cbn; eauto; fail|cbn; rewrite ?lookup_insert_ne by congruence; rewrite H2; exact K0]).
  - exfalso. by apply (Hno caller 0 [] o).
  - eapply K; [reflexivity|reflexivity|cbn; by eauto|]. cbn. rewrite lookup_insert_ne; [by rewrite H2|]. intros ->.
    match goal with H : w_pv (set_log [] w) !! c = None |- _ => cbn in H; congruence end.
  - eapply K; [reflexivity|reflexivity|cbn; by eauto|]. cbn. destruct (N.eq_dec c0 c) as [->|Hne].
    + rewrite lookup_insert. match goal with H : w_pv (set_log [] w) !! c = Some _ |- _ => cbn in H; rewrite H2 in H; injection H as <- end. by eexists.
    + rewrite lookup_insert_ne by done. by rewrite H2.
  - eapply K; [reflexivity|reflexivity|cbn|].
    + rewrite H1. unfold set_insert. destruct (existsb _ _); cbn; eauto.
    + cbn. rewrite lookup_insert_ne by congruence. by rewrite H2.
  - eapply K; [reflexivity|reflexivity|cbn; by eauto|]. cbn. rewrite lookup_delete_ne by congruence. by rewrite H2.
Qed.

Lemma stays_blocked c w os u eg pays o :
  stuck c w -> along (leaves_alone c) w os -> snd (step (run w os) (OTx u eg pays (DelegatePending o))) <> SOk.
Proof.
  revert w. induction os as [|x os IH]; intros w Hs Ha; [by eapply stuck_no_batch|].
  destruct Ha as [Ha1 Ha2]. apply IH; [by apply stuck_step|done].
Qed.

Lemma head_in_reach w c r a : w_dl w = c :: r -> 1 <= c_maxsel (w_cfg w) -> ONE_EGLD <= a -> in_reach w a c.
Proof.
  intros Hl HM Ha. exists [], r. split; [done|]. unfold takers_of, spread. cbn.
  assert (1 <= a `div` ONE_EGLD). { apply N.div_le_lower_bound; [done|lia]. } lia.
Qed.

Lemma head_blocks w c r p os u eg pays o :
  Reachable w -> w_dl w = c :: r -> w_pv w !! c = Some p -> p_admin p <> SELF -> 1 < net_stake p ->
  let x := OTx (p_admin p) 0 [] (ChangeParams c 0 1 0 0 true) in
  snd (step w x) = SOk
  /\ (along (leaves_alone c) (fst (step w x)) os -> snd (step (run (fst (step w x)) os) (OTx u eg pays (DelegatePending o))) <> SOk).
Proof.
  intros Hr Hl Hp Hu Hn x. assert (Hs : snd (step w x) = SOk) by (apply change_ok; try done; lia). split; [done|].
  assert (E : fst (step w x) = _) by (apply change_step; done). rewrite E. apply stays_blocked.
  exists r, (with_params 0 1 0 0 true p). cbn. rewrite lookup_insert. split_and!; try done.
Qed.

(** ** Everybody else *)
Lemma outsider_frame w u eg pays ep :
  ~ manages u w -> (forall d q, w_pv w !! d = Some q -> p_admin q <> u) ->
  let w' := fst (step w (OTx u eg pays ep)) in
  w_dl w' = w_dl w /\ w_pv w' = w_pv w /\ w_cfg w' = w_cfg w /\ w_owner w' = w_owner w.
Proof.
  intros Hm Ha w'. subst w'. assert (manager_b u (set_log [] w) = false) as Hb.
  { destruct (manager_b u (set_log [] w)) eqn:B; [|done]. exfalso. apply Hm. by apply manager_iff in B. }
  assert (u <> w_owner (set_log [] w)) as Ho. { intros ->. apply Hm. by left. }
  pose proof (step_did w (OTx u eg pays ep)) as D. remember (fst (step w (OTx u eg pays ep))) as w' eqn:Ew.
  remember (snd (step w (OTx u eg pays ep))) as s eqn:Es. clear Ew Es. remember (OTx u eg pays ep) as o eqn:Eo.
  destruct D; subst_pools; try discriminate Eo; try (injection Eo; intros; subst); try congruence;
    try match goal with H : ust_maybe _ _ _ _ |- _ => um_clean end; try done.
  match goal with H : p_admin _ = _ \/ _ |- _ => destruct H as [H|H]; [exfalso|congruence] end.
  match goal with H : w_pv (set_log [] w) !! _ = Some _ |- _ => by apply (Ha _ _ H) end.
Qed.

Lemma outsiders w u eg pays ep v y :
  Reachable w -> N.of_nat (length (w_dl w)) < 2 ^ 32 ->
  ~ manages u w -> (forall d q, w_pv w !! d = Some q -> p_admin q <> u) ->
  let w' := fst (step w (OTx u eg pays ep)) in
  fits_queue (Some y) (pending_egld w) -> fits_queue (Some y) (pending_egld w') ->
  (snd (step w' (OTx v 0 [] (DelegatePending (Some y)))) = SOk <-> snd (step w (OTx v 0 [] (DelegatePending (Some y)))) = SOk).
Proof.
  intros Hr HU Hm Ha w' Hq Hq'. destruct (outsider_frame w u eg pays ep Hm Ha) as (E1 & E2 & E3 & E4).
  fold w' in E1, E2, E3, E4. assert (Hr' : Reachable w') by (by apply reach_step).
  rewrite !delegate_pending_iff by (done || by rewrite E1). cbn [default from_option id].
  unfold operator, candidates, rec. rewrite E1, E2, E3, E4. tauto.
Qed.

(** ** Un-delegation looks at the books only *)
Record same_books (v w : world) : Prop := {
  sb_ul : w_ul v = w_ul w;
  sb_cfg : w_cfg v = w_cfg w;
  sb_pool : w_pool v = w_pool w;
  sb_owner : w_owner v = w_owner w;
  sb_rec : forall d, (p_staked (rec v d), p_pst (rec v d), p_pun (rec v d)) = (p_staked (rec w d), p_pst (rec w d), p_pun (rec w d))
}.

Lemma same_books_undel v w u o sc :
  Reachable v -> Reachable w -> N.of_nat (length (w_ul w)) < 2 ^ 32 -> same_books v w ->
  c_score (w_cfg w) = Some sc -> distinct_bounds sc ->
  snd (step w (OTx u 0 [] (UnDelegatePending o))) = SOk -> snd (step v (OTx u 0 [] (UnDelegatePending o))) = SOk.
Proof.
  intros Hv Hw HU [S1 S2 S3 S4 S5] Hsc [D1 D2] H. apply undelegate_pending_iff in H; [|done|done].
  assert (Hn : forall d, net_stake (rec v d) = net_stake (rec w d)).
  { intros d. specialize (S5 d). unfold net_stake. congruence. }
  assert (Hf : forall l, List.filter (fun c => 0 <? net_stake (rec v c)) l = List.filter (fun c => 0 <? net_stake (rec w c)) l).
  { intros l. apply List.filter_ext. intros d. by rewrite Hn. }
  assert (He : forall a l, enough v a l <-> enough w a l).
  { intros a l. unfold enough. rewrite S1, S2.
    replace (map (fun c => counts_for ((a / N.min (N.min (a / ONE_EGLD) (c_maxsel (w_cfg w))) (N.of_nat (length (w_ul w))) + a / c_maxsel (w_cfg w)) / 2) (rec v c)) l)
      with (map (fun c => counts_for ((a / N.min (N.min (a / ONE_EGLD) (c_maxsel (w_cfg w))) (N.of_nat (length (w_ul w))) + a / c_maxsel (w_cfg w)) / 2) (rec w c)) l); [done|].
    apply map_ext. intros d. unfold counts_for. by rewrite Hn. }
  assert (Hh : holders v = holders w). { unfold holders. rewrite S1. apply Hf. }
  apply undelegate_pending_iff; [done|by rewrite S1|]. unfold unstake_queue, operator, undel_limit in *.
  rewrite S1, S2, S3, S4. destruct H as (H1 & H2 & H3 & H4 & H5 & H6 & l & sc' & H7 & H8 & H9 & H10).
  do 5 (split; [done|]). split.
  - intros l1 c l2 Hl Hk Hno. rewrite Hf in Hk, Hno. rewrite He in Hno. specialize (H6 l1 c l2 Hl Hk Hno). specialize (S5 c). injection S5 as -> -> ->. done.
  - exists l, sc. split; [|split; [done|split; [done|]]].
    + destruct H7 as (r & K1 & K2 & K3 & K4). exists r. rewrite Hh. unfold undel_limit in *. rewrite S2. split_and!; try done.
      * intros l1 c l2 Hl. rewrite He. by eapply K3.
      * rewrite He. exact K4.
    + intros c Hc. rewrite Hn. split; [by apply H10|]. split; intros [E1 E2]; [apply D1|apply D2]; congruence.
Qed.

Lemma change_no_undel w x v o c total cap nodes apy elig sc :
  Reachable w -> N.of_nat (length (w_ul w)) < 2 ^ 32 -> c_score (w_cfg w) = Some sc -> distinct_bounds sc ->
  let w' := fst (step w (OTx x 0 [] (ChangeParams c total cap nodes apy elig))) in
  snd (step w' (OTx v 0 [] (UnDelegatePending o))) = SOk <-> snd (step w (OTx v 0 [] (UnDelegatePending o))) = SOk.
Proof.
  intros Hr HU Hsc Hd w'. assert (Hr' : Reachable w') by (by apply reach_step).
  assert (same_books w' w) as S.
  { pose proof (step_did w (OTx x 0 [] (ChangeParams c total cap nodes apy elig))) as D. fold w' in D.
    remember (snd (step w _)) as s eqn:Es. clear Es Hr'. clearbody w'. remember (OTx x 0 [] (ChangeParams c total cap nodes apy elig)) as y eqn:Ey.
    destruct D; try discriminate Ey; try (injection Ey; intros; subst); [by split|..].
    - split; try done. intros d. unfold rec. cbn.
      match goal with H : w_pv (set_log [] w) !! _ = Some _ |- _ => cbn in H; destruct (N.eq_dec d c) as [->|Hne] end.
      + rewrite lookup_insert, H0. done.
      + by rewrite lookup_insert_ne by done.
    - by exfalso. }
  assert (same_books w w') as S'. { destruct S. split; try done. }
  split; intros H.
  - apply (same_books_undel w w' v o sc); try done; destruct S; [by rewrite sb_ul0|by rewrite sb_cfg0].
  - by apply (same_books_undel w' w v o sc).
Qed.
