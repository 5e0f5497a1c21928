(** L_Score.v — scoring, and why provider selection does not abort. *)
From Verif Require Export L_Batch.

(** * Normalisation *)
Lemma norm_ok v mn mx d :
  mn <> mx \/ v <> mn -> exists r, norm_linear_clamp v mn mx d = Ok r /\ r <= BPS.
Proof.
  intros H. unfold norm_linear_clamp.
  assert (exists n, (if v <? mn then Ok 0 else if mx <? v then Ok BPS
            else let* d1 := sub v mn in let* d2 := sub mx mn in div (d1 * BPS) d2) = Ok n /\ n <= BPS) as (n & -> & Hn).
  { destruct (v <? mn) eqn:B1; [exists 0; split; [done|lia]|]. destruct (mx <? v) eqn:B2; [exists BPS; split; [done|lia]|].
    rewrite !sub_ok by lia. cbn. unfold div. destruct (mx - mn =? 0) eqn:B3; [lia|].
    eexists. split; [done|]. apply N.div_le_upper_bound; [lia|]. rewrite (N.mul_comm _ BPS), (N.mul_comm _ BPS).
    apply N.mul_le_mono_l. lia. }
  cbn. destruct d; [rewrite sub_ok by done|]; eexists; (split; [done|lia]).
Qed.

Lemma norm_mono v v' mn mx d r r' :
  v <= v' -> norm_linear_clamp v mn mx d = Ok r -> norm_linear_clamp v' mn mx d = Ok r' ->
  if d then r' <= r else r <= r'.
Proof.
  intros Hv. unfold norm_linear_clamp.
  intros H H'. apply rbind_ok in H as [n [E H]]. apply rbind_ok in H' as [n' [E' H']].
  assert (n <= n' /\ n <= BPS /\ n' <= BPS) as (Hn & Hb & Hb').
  { assert (forall u k, (if u <? mn then Ok 0 else if mx <? u then Ok BPS
            else let* d1 := sub u mn in let* d2 := sub mx mn in div (d1 * BPS) d2) = Ok k ->
        k <= BPS /\ (u < mn /\ k = 0 \/ mn <= u /\ mx < u /\ k = BPS \/ mn <= u <= mx /\ mx - mn <> 0 /\ k = (u - mn) * BPS / (mx - mn))) as HX.
    { clear. intros u k. destruct (u <? mn) eqn:B1; [intros [= <-]; split; [lia|]; left; lia|].
      destruct (mx <? u) eqn:B2; [intros [= <-]; split; [lia|]; right; left; lia|].
      rewrite !sub_ok by lia. cbn. unfold div. destruct (mx - mn =? 0) eqn:B3; [done|]. intros [= <-]. split; [|right; right; split_and!; lia].
      apply N.div_le_upper_bound; [lia|]. rewrite (N.mul_comm _ BPS), (N.mul_comm _ BPS). apply N.mul_le_mono_l. lia. }
    destruct (HX _ _ E) as [Hb K]. destruct (HX _ _ E') as [Hb' K']. split_and!; try done.
    destruct K as [[? ->]|[(? & ? & ->)|(? & ? & ->)]]; [lia| |].
    - destruct K' as [[? ->]|[(? & ? & ->)|(? & ? & ->)]]; lia.
    - destruct K' as [[? ->]|[(? & ? & ->)|(? & ? & ->)]]; [lia|lia|].
      apply N.div_le_mono; [done|]. apply N.mul_le_mono_r. lia. }
  destruct d.
  - unfold sub in H, H'. destruct (n <=? BPS) eqn:B; [|done]. destruct (n' <=? BPS) eqn:B'; [|done].
    injection H as <-. injection H' as <-. lia.
  - injection H as <-. injection H' as <-. done.
Qed.

Lemma scaled_mono b b' k c : b <= b' -> scaled b k c <= scaled b' k c.
Proof.
  intros H. unfold scaled, pow32. apply N.div_le_mono; [done|]. apply N.mul_le_mono_r. by apply N.pow_le_mono_l.
Qed.

Lemma scaled_bound b k c : b <= BPS -> scaled b k c * BPS <= k_max_score c * BPS ^ (k mod U32).
Proof.
  intros H. unfold scaled, pow32. rewrite N.mul_comm. etrans; [apply N.mul_div_le; done|].
  rewrite N.mul_comm. apply N.mul_le_mono_l. by apply N.pow_le_mono_l.
Qed.

(** * Scores *)
Lemma stake_ok s t b c : exists r, stake_score s t b c = Ok r /\ (0 < t -> r * BPS <= k_max_score c * BPS ^ (k_exp c mod U32)).
Proof.
  unfold stake_score. destruct (0 <? t) eqn:B.
  - destruct (norm_ok s 0 t b) as (r & -> & Hr); [lia|]. cbn. eexists. split; [done|]. intros _. by apply scaled_bound.
  - eexists. split; [done|]. lia.
Qed.

Lemma score_total i b t c : distinct_bounds c -> exists s, score_of i b t c = Ok s.
Proof.
  intros [H1 H2]. unfold score_of, node_score, apy_score.
  destruct (norm_ok (i_nodes i) (k_min_nodes c) (k_max_nodes c) b) as (n & -> & _); [tauto|].
  destruct (norm_ok (i_apy i) (k_min_apy c) (k_max_apy c) (negb b)) as (a & -> & _); [tauto|].
  destruct (stake_ok (i_avail i) t b c) as (s & Hs & _). cbn. rewrite Hs. cbn. by eexists.
Qed.

Lemma stake_mono s s' t b c r r' :
  s <= s' -> stake_score s t b c = Ok r -> stake_score s' t b c = Ok r' -> if b then r' <= r else r <= r'.
Proof.
  intros Hs. unfold stake_score. destruct (0 <? t); [|intros [= <-] [= <-]; destruct b; lia].
  intros H H'. apply rbind_ok in H as [n [E [= <-]]]. apply rbind_ok in H' as [n' [E' [= <-]]].
  pose proof (norm_mono _ _ _ _ _ _ _ Hs E E') as K. destruct b; by apply scaled_mono.
Qed.

Lemma score_mono i j b t c si sj :
  i_nodes i <= i_nodes j -> i_apy j <= i_apy i -> i_avail i <= i_avail j ->
  score_of i b t c = Ok si -> score_of j b t c = Ok sj -> if b then sj <= si else si <= sj.
Proof.
  intros H1 H2 H3. unfold score_of, node_score, apy_score. intros E E'.
  apply rbind_ok in E as [n [E1 E]]. apply rbind_ok in E1 as [n0 [E1 [= <-]]].
  apply rbind_ok in E as [a [E2 E]]. apply rbind_ok in E2 as [a0 [E2 [= <-]]].
  apply rbind_ok in E as [s [E3 [= <-]]].
  apply rbind_ok in E' as [n' [E1' E']]. apply rbind_ok in E1' as [n0' [E1' [= <-]]].
  apply rbind_ok in E' as [a' [E2' E']]. apply rbind_ok in E2' as [a0' [E2' [= <-]]].
  apply rbind_ok in E' as [s' [E3' [= <-]]].
  pose proof (norm_mono _ _ _ _ _ _ _ H1 E1 E1') as K1.
  pose proof (norm_mono _ _ _ _ _ _ _ H2 E2' E2) as K2.
  pose proof (stake_mono _ _ _ _ _ _ _ H3 E3 E3') as K3.
  unfold combine_scores. destruct b; cbn in *.
  - pose proof (scaled_mono _ _ (k_exp c) c K1). pose proof (scaled_mono _ _ (k_apy_mul c) c K2).
    repeat apply N.add_le_mono; by apply N.mul_le_mono_r.
  - pose proof (scaled_mono _ _ (k_exp c) c K1). pose proof (scaled_mono _ _ (k_apy_mul c) c K2).
    repeat apply N.add_le_mono; by apply N.mul_le_mono_r.
Qed.

Lemma node_bound v b c s : node_score v b c = Ok s -> s * BPS <= k_max_score c * BPS ^ (k_exp c mod U32).
Proof.
  unfold node_score. intros H. apply rbind_ok in H as [n [E [= <-]]]. apply scaled_bound.
  destruct (decide (k_min_nodes c <> k_max_nodes c \/ v <> k_min_nodes c)) as [D|D].
  - destruct (norm_ok v (k_min_nodes c) (k_max_nodes c) b D) as (r & E' & Hr). congruence.
  - exfalso. unfold norm_linear_clamp in E. destruct (v <? k_min_nodes c) eqn:B1; [lia|].
    destruct (k_max_nodes c <? v) eqn:B2; [lia|]. rewrite !sub_ok in E by lia. cbn in E. unfold div in E.
    destruct (k_max_nodes c - k_min_nodes c =? 0) eqn:B3; [done|lia].
Qed.

Lemma apy_bound v b c s : apy_score v b c = Ok s -> s * BPS <= k_max_score c * BPS ^ (k_apy_mul c mod U32).
Proof.
  unfold apy_score. intros H. apply rbind_ok in H as [n [E [= <-]]]. apply scaled_bound.
  destruct (decide (k_min_apy c <> k_max_apy c \/ v <> k_min_apy c)) as [D|D].
  - destruct (norm_ok v (k_min_apy c) (k_max_apy c) (negb b) D) as (r & E' & Hr). congruence.
  - exfalso. unfold norm_linear_clamp in E. destruct (v <? k_min_apy c) eqn:B1; [lia|].
    destruct (k_max_apy c <? v) eqn:B2; [lia|]. rewrite !sub_ok in E by lia. cbn in E. unfold div in E.
    destruct (k_max_apy c - k_min_apy c =? 0) eqn:B3; [done|lia].
Qed.

Lemma stake_bound v t b c s : 0 < t -> stake_score v t b c = Ok s -> s * BPS <= k_max_score c * BPS ^ (k_exp c mod U32).
Proof. intros Ht H. destruct (stake_ok v t b c) as (r & E & Hr). rewrite E in H. injection H as <-. auto. Qed.

Lemma score_all_total l b t c : distinct_bounds c -> exists l' T, score_all l b t c = Ok (l', T).
Proof.
  intros H. induction l as [|i l (l' & T & IH)]; cbn [score_all]; [by eexists _, _|].
  destruct (score_total i b t c H) as [s ->]. cbn. rewrite IH. cbn. by eexists _, _.
Qed.

(** * Shares *)
Definition share (A T : N) (i : sinfo) : N := i_score i * A / T.
Definition limited (A T : N) (i : sinfo) : N :=
  match i_space i with Some s => N.min (share A T i) s | None => share A T i end.

Lemma shares_le A T l : T <> 0 -> sumN (map (share A T) l) * T <= sumN (map i_score l) * A.
Proof.
  intros HT. induction l as [|i l IH]; cbn; [lia|].
  assert (share A T i * T <= i_score i * A) by (unfold share; rewrite N.mul_comm; by apply N.mul_div_le). lia.
Qed.

Lemma shares_sum A l : sumN (map i_score l) <> 0 -> sumN (map (share A (sumN (map i_score l))) l) <= A.
Proof.
  intros HT. pose proof (shares_le A _ l HT) as H. rewrite N.mul_comm in H. apply N.mul_le_mono_pos_l in H; [done|lia].
Qed.

(** what the proportional pass serves *)
Definition served (A T : N) (l : list sinfo) : list dsel :=
  flat_map (fun i => if MIN_EGLD <=? limited A T i
                     then [Dsel (i_addr i) (limited A T i) (match i_space i with Some s => Some (s - limited A T i) | None => None end)]
                     else []) l.

Lemma distribute_shares A T l rem :
  0 < T -> sumN (map (share A T) l) <= rem ->
  distribute_loop l A rem T true = Ok (served A T l, rem - damts (served A T l)) /\ damts (served A T l) <= rem.
Proof.
  intros HT. revert rem. induction l as [|i l IH]; intros rem H; cbn [distribute_loop].
  - change (served A T []) with (@nil dsel). change (damts []) with 0. split; [by rewrite N.sub_0_r|lia].
  - cbn in H. assert (Ha : provider_amount i A rem T true = Ok (limited A T i)).
    { unfold provider_amount, limited. destruct (0 <? T) eqn:B; [|lia]. unfold div. destruct (T =? 0) eqn:B1; [lia|].
      cbn. fold (share A T i). destruct (i_space i); f_equal; lia. }
    rewrite Ha. cbn [rbind]. assert (Hl : limited A T i <= share A T i) by (unfold limited; destruct (i_space i); lia).
    unfold served. cbn [flat_map]. fold (served A T l). destruct (MIN_EGLD <=? limited A T i) eqn:B.
    + rewrite sub_ok by lia. cbn [rbind].
      destruct (IH (rem - limited A T i)) as [IH1 IH2]; [lia|].
      assert (Hd : damts (Dsel (i_addr i) (limited A T i)
         (match i_space i with Some s => Some (s - limited A T i) | None => None end) :: served A T l)
         = limited A T i + damts (served A T l)) by done.
      destruct (i_space i) as [s|] eqn:E.
      * assert (limited A T i <= s) by (unfold limited; rewrite E; lia). rewrite sub_ok by done. cbn [rbind]. rewrite IH1.
        cbn [rbind app]. rewrite Hd. split; [f_equal; f_equal; lia|lia].
      * cbn [rbind]. rewrite IH1. cbn [rbind app]. rewrite Hd. split; [f_equal; f_equal; lia|lia].
    + cbn [app]. apply IH. lia.
Qed.

Lemma same_more ds : Forall2 (fun d d' => d_addr d' = d_addr d /\ d_amt d <= d_amt d') ds ds.
Proof. induction ds; constructor; [split; [done|lia]|done]. Qed.

Lemma remaining_more ds rem b ds' rem' :
  remaining_loop ds rem b = Ok (ds', rem') -> Forall2 (fun d d' => d_addr d' = d_addr d /\ d_amt d <= d_amt d') ds ds'.
Proof.
  revert rem ds' rem'. induction ds as [|d ds IH]; intros rem ds' rem' H; cbn [remaining_loop] in H.
  - injection H as <- <-. constructor.
  - destruct (rem =? 0). { injection H as <- <-. apply same_more. }
    apply rbind_ok in H as [[d' rem1] [E H]]. apply rbind_ok in H as [[r' rem2] [E1 H]]. injection H as <- <-.
    apply IH in E1. constructor; [|done]. destruct b; cbn in E.
    + destruct (d_space d).
      * destruct (0 <? _); [|injection E as <- <-; split; [done|lia]]. apply rbind_ok in E as [x [_ E]]. injection E as <- <-. cbn. split; [done|lia].
      * injection E as <- <-. cbn. split; [done|lia].
    + apply rbind_ok in E as [sp [_ E]]. apply rbind_ok in E as [lf [_ E]].
      destruct (_ && _); [|injection E as <- <-; split; [done|lia]]. apply rbind_ok in E as [x [_ E]]. injection E as <- <-. cbn. split; [done|lia].
Qed.

Lemma remaining_total_deleg ds rem : exists ds' rem', remaining_loop ds rem true = Ok (ds', rem').
Proof.
  revert rem. induction ds as [|d ds IH]; intros rem; cbn [remaining_loop]; [by eexists _, _|].
  destruct (rem =? 0); [by eexists _, _|]. cbn.
  destruct (d_space d) as [s|].
  - destruct (0 <? N.min s rem).
    + rewrite sub_ok by lia. cbn. destruct (IH (rem - N.min s rem)) as (x & y & ->). by eexists _, _.
    + cbn. destruct (IH rem) as (x & y & ->). by eexists _, _.
  - cbn. destruct (IH 0) as (x & y & ->). by eexists _, _.
Qed.

Lemma distribute_total_deleg l A rem T : exists ds rem', distribute_loop l A rem T true = Ok (ds, rem').
Proof.
  revert rem. induction l as [|i l IH]; intros rem; cbn [distribute_loop]; [by eexists _, _|].
  assert (exists a, provider_amount i A rem T true = Ok a) as [a Ea].
  { unfold provider_amount, div. destruct (0 <? T) eqn:B; cbn.
    - destruct (T =? 0) eqn:B1; [lia|]. cbn. destruct (i_space i); by eexists.
    - destruct (i_space i); by eexists. }
  rewrite Ea. cbn [rbind]. apply provider_amount_deleg in Ea as [Ha Hs].
  destruct (MIN_EGLD <=? a); [|apply IH]. rewrite sub_ok by done. cbn [rbind].
  destruct (IH (rem - a)) as (x & y & E). destruct (i_space i); [rewrite sub_ok by done|]; cbn [rbind]; rewrite E; by eexists _, _.
Qed.

(** Delegation: every selected provider whose share, limited by its free
    capacity, reaches 1 EGLD is served with at least that; the others are not. *)
Lemma deleg_shares l A t c ds rem l' T :
  score_all l true t c = Ok (l', T) -> 0 < T -> distribute_amount l A true t c = Ok (ds, rem) ->
  sumN (map (share A T) l') <= A
  /\ Forall2 (fun d d' => d_addr d' = d_addr d /\ d_amt d <= d_amt d') (served A T l') ds.
Proof.
  intros Es HT H. unfold distribute_amount in H. rewrite Es in H. cbn [rbind] in H.
  pose proof (score_all_inv _ _ _ _ _ _ Es) as [_ ->].
  pose proof (shares_sum A l' ltac:(lia)) as Hs. split; [done|].
  destruct (distribute_shares A _ l' A HT Hs) as [E _]. rewrite E in H. cbn [rbind] in H.
  destruct (_ =? 0).
  - injection H as <- _. apply same_more.
  - by eapply remaining_more.
Qed.

Lemma max_score (l : list sinfo) : l <> [] -> exists i, In i l /\ sumN (map i_score l) <= N.of_nat (length l) * i_score i
  /\ forall j, In j l -> i_score j <= i_score i.
Proof.
  induction l as [|a l IH]; [done|intros _]. destruct l as [|b l].
  - exists a. cbn. split_and!; [by left|lia|]. intros j [<-|[]]; lia.
  - destruct IH as (i & Hi & Hs & Hm); [done|]. destruct (N.le_gt_cases (i_score a) (i_score i)) as [L|L].
    + exists i. split_and!; [by right| |].
      * cbn [map sumN] in *. replace (N.of_nat (length (a :: b :: l))) with (N.of_nat (length (b :: l)) + 1) by (cbn [length]; lia). lia.
      * intros j [<-|Hj]; [done|auto].
    + exists a. split_and!; [by left| |].
      * cbn [map sumN] in *. replace (N.of_nat (length (a :: b :: l))) with (N.of_nat (length (b :: l)) + 1) by (cbn [length]; lia).
        assert (N.of_nat (length (b :: l)) * i_score i <= N.of_nat (length (b :: l)) * i_score a) by (apply N.mul_le_mono_l; lia). lia.
      * intros j [<-|Hj]; [lia|]. specialize (Hm j Hj). lia.
Qed.

Lemma top_share A l i :
  0 < sumN (map i_score l) -> In i l -> sumN (map i_score l) <= N.of_nat (length l) * i_score i ->
  N.of_nat (length l) * MIN_EGLD <= A -> MIN_EGLD <= share A (sumN (map i_score l)) i.
Proof.
  intros HT Hi Hs HA. set (T := sumN (map i_score l)) in *. unfold share.
  apply N.div_le_lower_bound; [lia|]. 
  assert (T * MIN_EGLD <= N.of_nat (length l) * i_score i * MIN_EGLD) by (by apply N.mul_le_mono_r).
  assert (i_score i * (N.of_nat (length l) * MIN_EGLD) <= i_score i * A) by (by apply N.mul_le_mono_l). lia.
Qed.

(** * Selection does not abort *)
(** recorded stake with calls in flight counted: zero or at least 1 EGLD *)
Definition net_ok (p : prov) : Prop :=
  p_staked p + p_pst p = p_pun p \/ p_pun p + MIN_EGLD <= p_staked p + p_pst p.

Lemma net_avail p : net_ok p -> avail p = Ok (p_staked p + p_pst p - p_pun p).
Proof. intros [H|H]; unfold avail; apply sub_ok; lia. Qed.

Lemma mk_info_total c p : net_ok p -> caps_ok p ->
  exists i, mk_info c p = Ok i /\ i_avail i = p_staked p + p_pst p - p_pun p.
Proof.
  intros Hn Hc. unfold mk_info. rewrite (net_avail _ Hn). destruct (p_cap p =? 0) eqn:B.
  - cbn. by eexists.
  - rewrite sub_ok by (destruct Hc; lia). cbn. by eexists.
Qed.

Lemma take_ok s avg : exists t, amount_to_take s avg = Ok t /\ (0 < avg -> 0 < s -> 0 < t) /\ (s = 0 -> t = 0).
Proof.
  pose proof MIN_pos. unfold amount_to_take. destruct (avg <=? s) eqn:B; [eexists; split; [done|]; lia|].
  destruct (MIN_EGLD * 2 <? s) eqn:B1; [rewrite sub_ok by lia|]; eexists; (split; [done|]); lia.
Qed.

Lemma sel_undel_total l pv hard maxp avg rem n :
  hard < U64 -> Forall (fun c => exists p, pv !! c = Some p /\ net_ok p /\ caps_ok p) l ->
  exists is t, sel_undel_loop l pv hard maxp avg rem n = Ok (is, t) /\ Forall (fun i => MIN_EGLD <= i_avail i) is.
Proof.
  intros Hh HF. revert rem n. induction HF as [|c l (p & Hp & Hn & Hc) _ IH]; intros rem n; cbn [sel_undel_loop].
  - by eexists _, _.
  - unfold to_usize. destruct (hard <? U64) eqn:B; [|lia]. cbn [rbind].
    destruct (_ <=? n); [by eexists _, _|]. destruct (_ && _); [by eexists _, _|].
    unfold get_prov. rewrite Hp. cbn [rbind]. rewrite (net_avail _ Hn). cbn [rbind].
    destruct (take_ok (p_staked p + p_pst p - p_pun p) avg) as (t & -> & Ht & Ht0). cbn [rbind].
    destruct (0 <? t) eqn:B1.
    + destruct (mk_info_total c p Hn Hc) as (i & -> & Hi). cbn [rbind].
      assert (exists r', (if t <? rem then sub rem t else Ok 0) = Ok r') as [r' ->].
      { destruct (t <? rem) eqn:B2; [rewrite sub_ok by lia|]; by eexists. }
      cbn [rbind]. destruct (IH r' (n + 1)) as (is & t' & -> & HI). cbn. eexists _, _. split; [done|]. constructor; [|done].
      rewrite Hi. destruct Hn; lia.
    + apply IH.
Qed.

Lemma sel_undel_nonempty l pv hard maxp avg rem is t :
  sel_undel_loop l pv hard maxp avg rem 0 = Ok (is, t) ->
  0 < maxp -> 0 < avg -> hard mod U32 <> 0 ->
  (exists c p, c ∈ l /\ pv !! c = Some p /\ p_pun p < p_staked p + p_pst p) -> is <> [].
Proof.
  intros H Hm Ha Hh. revert H. induction l as [|c l IH]; intros H (c0 & p & Hin & Hp & Hs); [by apply elem_of_nil in Hin|].
  cbn [sel_undel_loop] in H. unfold to_usize in H. destruct (hard <? U64); [|done]. cbn [rbind] in H.
  destruct (_ <=? 0) eqn:B; [lia|]. destruct ((maxp <=? 0) && _) eqn:B1; [apply andb_true_iff in B1 as [? _]; lia|].
  apply rbind_ok in H as [q [Eq H]]. apply rbind_ok in H as [s [Es H]]. apply rbind_ok in H as [tk [Et H]].
  destruct (0 <? tk) eqn:B2.
  - apply rbind_ok in H as [i [_ H]]. apply rbind_ok in H as [r' [_ H]]. apply rbind_ok in H as [[is' t'] [_ H]].
    by injection H as <- <-.
  - apply IH; [done|]. exists c0, p. split_and!; try done. apply elem_of_cons in Hin as [->|]; [|done]. exfalso.
    unfold get_prov in Eq. rewrite Hp in Eq. injection Eq as <-. unfold avail in Es. rewrite sub_ok in Es by lia. injection Es as <-.
    destruct (take_ok (p_staked p + p_pst p - p_pun p) avg) as (t' & E & H1 & _). rewrite E in Et. injection Et as <-. lia.
Qed.

Lemma provider_amount_undel_total i A rem T : MIN_EGLD <= i_avail i -> exists a, provider_amount i A rem T false = Ok a.
Proof.
  intros H. unfold provider_amount.
  assert (exists pr, (if 0 <? T then div (i_score i * A) T else Ok rem) = Ok pr) as [pr ->].
  { destruct (0 <? T) eqn:B; [|by eexists]. unfold div. destruct (T =? 0) eqn:B1; [lia|by eexists]. }
  cbn [rbind]. rewrite sub_ok by lia. cbn [rbind]. destruct (_ <? MIN_EGLD); [|by eexists].
  destruct (i_avail i <=? rem) eqn:B; [by eexists|]. rewrite sub_ok by lia. cbn. destruct (_ <? _); by eexists.
Qed.

Lemma distribute_total_undel l A rem T :
  Forall (fun i => MIN_EGLD <= i_avail i) l -> exists ds rem', distribute_loop l A rem T false = Ok (ds, rem').
Proof.
  intros HF. revert rem. induction HF as [|i l Hi _ IH]; intros rem; cbn [distribute_loop]; [by eexists _, _|].
  destruct (provider_amount_undel_total i A rem T Hi) as [a Ea]. rewrite Ea. cbn [rbind].
  destruct (MIN_EGLD <=? a) eqn:B; [|apply IH].
  apply provider_amount_undel in Ea as [->|(H1 & H2 & _)]; [pose proof MIN_pos; lia|].
  rewrite sub_ok by done. cbn [rbind]. rewrite sub_ok by done. cbn [rbind]. destruct (IH (rem - a)) as (x & y & ->). by eexists _, _.
Qed.

Lemma remaining_total_undel ds rem :
  Forall (fun d => is_Some (d_space d)) ds -> exists ds' rem', remaining_loop ds rem false = Ok (ds', rem').
Proof.
  intros HF. revert rem. induction HF as [|d ds [s Hs] _ IH]; intros rem; cbn [remaining_loop]; [by eexists _, _|].
  destruct (rem =? 0); [by eexists _, _|]. cbn. rewrite Hs. cbn. rewrite sub_ok by lia. cbn.
  destruct (_ && _).
  - rewrite sub_ok by lia. cbn. destruct (IH (rem - N.min s rem)) as (x & y & ->). by eexists _, _.
  - cbn. destruct (IH rem) as (x & y & ->). by eexists _, _.
Qed.

Lemma distribute_amount_undel_total l A t c :
  distinct_bounds c -> Forall (fun i => MIN_EGLD <= i_avail i) l ->
  exists ds rem, distribute_amount l A false t c = Ok (ds, rem).
Proof.
  intros Hc HF. unfold distribute_amount. destruct (score_all_total l false t c Hc) as (l' & T & E). rewrite E. cbn [rbind].
  assert (HF' : Forall (fun i => MIN_EGLD <= i_avail i) l').
  { apply score_all_addr in E as [_ E]. change (Forall (fun i => (fun x => MIN_EGLD <= x) (i_avail i)) l'). apply Forall_map. rewrite E. apply Forall_map. exact HF. }
  destruct (distribute_total_undel l' A A T HF') as (ds & rem & E1). rewrite E1. cbn [rbind].
  destruct (rem =? 0); [by eexists _, _|]. apply remaining_total_undel.
  apply distribute_loop_inv in E1 as [Hp _]. pose proof (picks_forall _ _ _ (fun _ => True) Hp ltac:(by apply Forall_true)) as HQ.
  eapply Forall_impl; [|exact HQ]. cbn. intros d (i & _ & _ & _ & _ & -> & _). by eexists.
Qed.

Lemma distribute_amount_deleg_total l A t c :
  distinct_bounds c -> exists ds rem, distribute_amount l A true t c = Ok (ds, rem).
Proof.
  intros Hc. unfold distribute_amount. destruct (score_all_total l true t c Hc) as (l' & T & E). rewrite E. cbn [rbind].
  destruct (distribute_total_deleg l' A A T) as (ds & rem & E1). rewrite E1. cbn [rbind].
  destruct (rem =? 0); [by eexists _, _|]. apply remaining_total_deleg.
Qed.

Lemma maxp_ok a maxsel len :
  MIN_EGLD <= a -> 1 <= maxsel -> 0 < len -> len < U32 ->
  exists m, calc_max_providers a maxsel len = Ok m /\ 0 < m /\ m <= maxsel /\ m * MIN_EGLD <= a /\ m <= len
    /\ m = N.min (N.min (a / MIN_EGLD) maxsel) len.
Proof.
  intros Ha Hm Hl HU. unfold calc_max_providers, div. destruct (MIN_EGLD =? 0) eqn:B; [done|]. cbn [rbind].
  assert (1 <= a / MIN_EGLD) by (apply N.div_le_lower_bound; [done|lia]).
  unfold to_usize. assert (U32 < U64) by done. destruct (_ <? U64) eqn:B1; [|lia].
  eexists. split; [done|]. rewrite N.mod_small by lia. split_and!; try lia.
  assert (MIN_EGLD * (a / MIN_EGLD) <= a) by (by apply N.mul_div_le).
  assert (N.min (N.min (a / MIN_EGLD) maxsel) len * MIN_EGLD <= (a / MIN_EGLD) * MIN_EGLD) by (apply N.mul_le_mono_r; lia). lia.
Qed.

Definition undel_ready (ul : list N) (pv : gmap N prov) : Prop :=
  N.of_nat (length ul) < U32
  /\ Forall (fun c => exists p, pv !! c = Some p /\ net_ok p /\ caps_ok p) ul
  /\ exists c p, c ∈ ul /\ pv !! c = Some p /\ p_pun p < p_staked p + p_pst p.

Lemma get_undel_total a dl ul pv g c sc :
  MIN_EGLD <= a -> 1 <= c_maxsel g < U64 -> c_maxsel g mod U32 <> 0 -> c_score g = Some sc -> distinct_bounds sc ->
  undel_ready ul pv -> exists ds c1, get_delegation_contract a false dl ul pv g c = Ok (ds, c1).
Proof.
  intros Ha [Hm HU] Hh Hs Hd (Hl & HF & Hex). pose proof MIN_pos as HM. unfold get_delegation_contract.
  assert (Hpos : 0 < N.of_nat (length ul)) by (destruct Hex as (c0 & p & Hin & _); destruct ul; [by apply elem_of_nil in Hin|cbn; lia]).
  destruct (N.of_nat (length ul) =? 0) eqn:B; [lia|]. cbn [negb require rbind]. unfold select_undel.
  destruct (maxp_ok a (c_maxsel g) (N.of_nat (length ul)) Ha Hm Hpos Hl) as (m & -> & Hm0 & Hm1 & Hm2 & _). cbn [rbind].
  unfold div. destruct (c_maxsel g =? 0) eqn:B1; [lia|]. cbn [rbind]. destruct (m =? 0) eqn:B2; [lia|]. cbn [rbind].
  change (2 =? 0) with false. cbn [rbind].
  assert (MIN_EGLD <= a / m) by (apply N.div_le_lower_bound; lia).
  assert (Havg : 0 < (a / m + a / c_maxsel g) / 2).
  { apply N.lt_le_trans with 1; [lia|]. apply N.div_le_lower_bound; [done|]. assert (H2 : 2 <= MIN_EGLD) by done.
    clear -H H2. generalize dependent (a / m). generalize (a / c_maxsel g). intros. lia. }
  destruct (sel_undel_total ul pv (c_maxsel g) m ((a / m + a / c_maxsel g) / 2) a 0 HU HF) as (is & t & E & HI). rewrite E. cbn [rbind].
  pose proof (sel_undel_nonempty _ _ _ _ _ _ _ _ E Hm0 Havg Hh Hex) as Hne.
  destruct (N.of_nat (length is) =? 0) eqn:B3; [destruct is; [done|cbn in B3; lia]|]. cbn [negb require rbind].
  unfold get_scoring_config. rewrite Hs. cbn [rbind].
  destruct (distribute_amount_undel_total is a t sc Hd HI) as (ds & rem & ->). cbn. by eexists _, _.
Qed.

(** a listed provider on which the eligibility check cannot abort *)
Definition deleg_safe (p : prov) : Prop :=
  p_elig p = false
  \/ p_pun p <= p_staked p + p_pst p /\ (p_cap p = 0 \/ p_staked p + p_pst p - p_pun p <= p_cap p).

Lemma eligible_total p : deleg_safe p -> exists b, prov_eligible p = Ok b
  /\ (b = true <-> p_elig p = true /\ (p_cap p = 0 \/ p_staked p + p_pst p - p_pun p + MIN_EGLD <= p_cap p)).
Proof.
  intros H. unfold prov_eligible. destruct (p_elig p) eqn:E; cbn.
  - destruct H as [H|[H1 H2]]; [congruence|]. destruct (p_cap p =? 0) eqn:B.
    + eexists. split; [done|]. split; [intros _; split; [done|left; lia]|done].
    + unfold avail. rewrite sub_ok by done. cbn. rewrite sub_ok by lia. cbn. eexists. split; [done|].
      rewrite N.leb_le. split; [intros; split; [done|lia]|intros [_ [?|?]]; lia].
  - eexists. split; [done|]. split; [done|]. by intros [? _].
Qed.

Lemma sel_deleg_total l pv maxp n :
  Forall (fun c => exists p, pv !! c = Some p /\ deleg_safe p /\ caps_ok p) l ->
  exists is t, sel_deleg_loop l pv maxp n = Ok (is, t).
Proof.
  intros HF. revert n. induction HF as [|c l (p & Hp & Hs & Hc) _ IH]; intros n; cbn [sel_deleg_loop].
  - by eexists _, _.
  - unfold get_prov. rewrite Hp. cbn [rbind]. destruct (eligible_total p Hs) as (b & -> & Hb). cbn [rbind]. destruct b.
    + destruct Hb as [Hb _]. destruct (Hb eq_refl) as [He _]. destruct Hs as [Hs|[Hs1 Hs2]]; [congruence|].
      assert (Ha : avail p = Ok (p_staked p + p_pst p - p_pun p)) by (unfold avail; by rewrite sub_ok). rewrite Ha. cbn [rbind].
      assert (exists i, mk_info c p = Ok i) as [i ->].
      { unfold mk_info. rewrite Ha. destruct (p_cap p =? 0) eqn:B; [cbn; by eexists|]. rewrite sub_ok by (destruct Hc; lia). cbn. by eexists. }
      cbn [rbind]. destruct (_ =? maxp); [by eexists _, _|]. destruct (IH (n + 1)) as (x & y & ->). by eexists _, _.
    + destruct (n =? maxp); [by eexists _, _|apply IH].
Qed.

Definition can_serve (p : prov) : Prop :=
  p_elig p = true /\ p_pun p <= p_staked p + p_pst p /\ (p_cap p = 0 \/ p_staked p + p_pst p - p_pun p + MIN_EGLD <= p_cap p).

Lemma sel_deleg_nonempty l pv maxp is t :
  sel_deleg_loop l pv maxp 0 = Ok (is, t) -> 0 < maxp ->
  (exists c p, c ∈ l /\ pv !! c = Some p /\ can_serve p) -> is <> [].
Proof.
  intros H Hm. revert H. induction l as [|c l IH]; intros H (c0 & p & Hin & Hp & Hs); [by apply elem_of_nil in Hin|].
  cbn [sel_deleg_loop] in H. apply rbind_ok in H as [q [Eq H]]. apply rbind_ok in H as [b [Eb H]]. destruct b.
  - apply rbind_ok in H as [a [_ H]]. apply rbind_ok in H as [i [_ H]]. destruct (_ =? maxp); [by injection H as <- <-|].
    apply rbind_ok in H as [[is' t'] [_ H]]. by injection H as <- <-.
  - destruct (0 =? maxp) eqn:B; [lia|]. apply IH; [done|]. exists c0, p. split_and!; try done.
    apply elem_of_cons in Hin as [->|]; [|done]. exfalso. unfold get_prov in Eq. rewrite Hp in Eq. injection Eq as <-.
    destruct Hs as (He & H1 & H2). destruct (eligible_total p) as (b & E & [_ Hb]); [right; split; [done|lia]|].
    rewrite E in Eb. injection Eb as ->. discriminate (Hb (conj He H2)).
Qed.

Definition deleg_ready (dl : list N) (pv : gmap N prov) : Prop :=
  N.of_nat (length dl) < U32
  /\ Forall (fun c => exists p, pv !! c = Some p /\ deleg_safe p /\ caps_ok p) dl
  /\ exists c p, c ∈ dl /\ pv !! c = Some p /\ can_serve p.

Lemma get_deleg_total a dl ul pv g c sc :
  MIN_EGLD <= a -> 1 <= c_maxsel g -> c_score g = Some sc -> distinct_bounds sc ->
  deleg_ready dl pv -> exists ds c1, get_delegation_contract a true dl ul pv g c = Ok (ds, c1).
Proof.
  intros Ha Hm Hs Hd (Hl & HF & Hex). unfold get_delegation_contract.
  assert (Hpos : 0 < N.of_nat (length dl)) by (destruct Hex as (c0 & p & Hin & _); destruct dl; [by apply elem_of_nil in Hin|cbn; lia]).
  destruct (N.of_nat (length dl) =? 0) eqn:B; [lia|]. cbn [negb require rbind]. unfold select_deleg.
  destruct (maxp_ok a (c_maxsel g) (N.of_nat (length dl)) Ha Hm Hpos Hl) as (m & -> & Hm0 & _). cbn [rbind].
  destruct (sel_deleg_total dl pv m 0 HF) as (is & t & E). rewrite E. cbn [rbind].
  pose proof (sel_deleg_nonempty _ _ _ _ _ E Hm0 Hex) as Hne.
  destruct (N.of_nat (length is) =? 0) eqn:B3; [destruct is; [done|cbn in B3; lia]|]. cbn [negb require rbind].
  unfold get_scoring_config. rewrite Hs. cbn [rbind].
  destruct (distribute_amount_deleg_total is a t sc Hd) as (ds & rem & ->). cbn. by eexists _, _.
Qed.

(** * The batch endpoints work *)
Definition batch_choice (o : option N) (q : N) : Prop :=
  MIN_EGLD <= q /\ match o with Some x => MIN_EGLD <= x <= q /\ (x = q \/ x + MIN_EGLD <= q) | None => True end.

Lemma batch_choice_ok o q : batch_choice o q -> batch_amount o q = Ok (default q o) /\ MIN_EGLD <= default q o <= q.
Proof.
  intros [H1 H2]. split; [|destruct o; cbn; lia]. apply batch_amount_ok; [done|]. destruct o; [|done]. lia.
Qed.

Lemma manager_step u w : manager_b u w = true -> is_manager u w = Ok tt.
Proof. intros H. unfold is_manager. by rewrite H. Qed.

Lemma delegate_pending_works w u o sc :
  Reachable w -> u <> SELF -> c_lstok (w_cfg w) = TIssued -> c_active (w_cfg w) = true -> manager_b u w = true ->
  batch_choice o (pend (w_pool w)) -> c_score (w_cfg w) = Some sc -> distinct_bounds sc ->
  deleg_ready (w_dl w) (w_pv w) ->
  snd (step w (OTx u 0 [] (DelegatePending o))) = SOk.
Proof.
  intros Hr Hu HI Ha Hm Hb Hs Hd Hl. pose proof (cfgok w Hr) as (HM & _). pose proof (acct w Hr) as A.
  destruct (batch_choice_ok _ _ Hb) as [Eb [Hb1 Hb2]].
  assert (exists w', exec_tx u 0 [] (DelegatePending o) (set_log [] w) = Ok w') as [w' E]; [|unfold step; by rewrite E].
  unfold exec_tx. destruct (u =? SELF) eqn:B; [lia|]. cbn. replace (w_egld w + 0) with (w_egld w) by lia.
  unfold delegate_pending, cache_new, ls_token_id, is_state_active. cbn. rewrite HI. cbn. rewrite Ha. cbn.
  rewrite manager_step by exact Hm. cbn [rbind]. rewrite Eb. cbn [rbind].
  destruct (get_deleg_total (default (pend (w_pool w)) o) (w_dl w) (w_ul w) (w_pv w) (w_cfg w) (w_pool w) sc Hb1 HM Hs Hd Hl)
    as (ds & c1 & E). rewrite E. cbn [rbind]. pose proof (get_deleg_inv _ _ _ _ _ _ _ _ E) as (K1 & K2 & _ & K4 & ->).
  cbn [pend set_pend]. rewrite sub_ok by lia. cbn [rbind].
  rewrite delegate_batch_ok; [by eexists| |].
  - cbn. destruct A. cbn in *. unfold pending_egld in *. lia.
  - eapply Forall_impl; [|exact K2]. intros d (p & Hp & _). cbn. by eexists.
Qed.

Lemma undelegate_pending_works w u o sc :
  Reachable w -> u <> SELF -> c_lstok (w_cfg w) = TIssued -> c_active (w_cfg w) = true -> manager_b u w = true ->
  batch_choice o (pfu (w_pool w)) -> c_score (w_cfg w) = Some sc -> distinct_bounds sc ->
  c_maxsel (w_cfg w) < U64 -> c_maxsel (w_cfg w) mod U32 <> 0 -> undel_ready (w_ul w) (w_pv w) ->
  snd (step w (OTx u 0 [] (UnDelegatePending o))) = SOk.
Proof.
  intros Hr Hu HI Ha Hm Hb Hs Hd HU1 HU2 Hl. pose proof (cfgok w Hr) as (HM & _).
  destruct (batch_choice_ok _ _ Hb) as [Eb [Hb1 Hb2]].
  assert (exists w', exec_tx u 0 [] (UnDelegatePending o) (set_log [] w) = Ok w') as [w' E]; [|unfold step; by rewrite E].
  unfold exec_tx. destruct (u =? SELF) eqn:B; [lia|]. cbn. replace (w_egld w + 0) with (w_egld w) by lia.
  unfold un_delegate_pending, cache_new, ls_token_id, is_state_active. cbn. rewrite HI. cbn. rewrite Ha. cbn.
  rewrite manager_step by exact Hm. cbn [rbind]. rewrite Eb. cbn [rbind].
  destruct (get_undel_total (default (pfu (w_pool w)) o) (w_dl w) (w_ul w) (w_pv w) (w_cfg w) (w_pool w) sc Hb1 (conj HM HU1) HU2 Hs Hd Hl)
    as (ds & c1 & E). rewrite E. cbn [rbind]. pose proof (get_undel_inv _ _ _ _ _ _ _ _ E) as (K1 & K2 & _ & K4 & ->).
  cbn [pfu set_pfu]. rewrite sub_ok by lia. cbn [rbind].
  rewrite undelegate_batch_ok; [by eexists|].
  eapply Forall_impl; [|exact K2]. intros d (p & Hp & _). cbn. by eexists.
Qed.

(** * Statements used by P_Score *)
Lemma better_scores i j t c si sj :
  i_nodes i <= i_nodes j -> i_apy j <= i_apy i -> i_avail i <= i_avail j ->
  (score_of i true t c = Ok si -> score_of j true t c = Ok sj -> sj <= si)
  /\ (score_of i false t c = Ok si -> score_of j false t c = Ok sj -> si <= sj).
Proof.
  intros H1 H2 H3. split; intros E1 E2.
  - exact (score_mono i j true t c si sj H1 H2 H3 E1 E2).
  - exact (score_mono i j false t c si sj H1 H2 H3 E1 E2).
Qed.

Lemma category_bounds c b v t s :
  (node_score v b c = Ok s -> s * 10000 <= k_max_score c * 10000 ^ (k_exp c mod 2 ^ 32))
  /\ (apy_score v b c = Ok s -> s * 10000 <= k_max_score c * 10000 ^ (k_apy_mul c mod 2 ^ 32))
  /\ (stake_score v t b c = Ok s -> 0 < t -> s * 10000 <= k_max_score c * 10000 ^ (k_exp c mod 2 ^ 32))
  /\ (stake_score v 0 b c = Ok s -> s = k_max_score c ^ (k_exp c mod 2 ^ 32) * k_max_score c / 10000).
Proof.
  split_and!.
  - exact (node_bound v b c s).
  - exact (apy_bound v b c s).
  - intros E H. exact (stake_bound v t b c s H E).
  - intros [= <-]. reflexivity.
Qed.

Definition cut (A T : N) (i : sinfo) : N :=
  match i_space i with Some s => N.min (i_score i * A / T) s | None => i_score i * A / T end.

Lemma served_filter A T l : map d_addr (served A T l) = map i_addr (List.filter (fun i => ONE_EGLD <=? cut A T i) l).
Proof.
  induction l as [|i l IH]; [done|]. unfold served. cbn [flat_map List.filter]. fold (served A T l).
  change (cut A T i) with (limited A T i). change ONE_EGLD with MIN_EGLD.
  destruct (MIN_EGLD <=? limited A T i); cbn [app map]; [f_equal|]; exact IH.
Qed.

Lemma more_addr ds ds' : Forall2 (fun d d' => d_addr d' = d_addr d /\ d_amt d <= d_amt d') ds ds' -> map d_addr ds' = map d_addr ds.
Proof. induction 1 as [|d d' r r' [H1 H2] _ IH]; [done|]. cbn. by f_equal. Qed.

Lemma more_amt ds ds' d : Forall2 (fun d d' => d_addr d' = d_addr d /\ d_amt d <= d_amt d') ds ds' -> In d ds ->
  exists d', In d' ds' /\ d_addr d' = d_addr d /\ d_amt d <= d_amt d'.
Proof.
  induction 1 as [|x y r r' [H1 H2] _ IH]; intros Hin; [done|]. destruct Hin as [->|Hin].
  - exists y. split_and!; [by left|done|done].
  - destruct (IH Hin) as (d' & ? & ? & ?). exists d'. split_and!; [by right|done|done].
Qed.

Lemma in_served A T l i : In i l -> ONE_EGLD <= cut A T i -> exists d, In d (served A T l) /\ d_addr d = i_addr i /\ d_amt d = cut A T i.
Proof.
  intros Hin Hc. eexists (Dsel (i_addr i) (limited A T i) _). split_and!; [|done|done].
  unfold served. apply in_flat_map. exists i. split; [done|].
  change (cut A T i) with (limited A T i) in Hc. change ONE_EGLD with MIN_EGLD in Hc. rewrite (proj2 (N.leb_le _ _) Hc). left. reflexivity.
Qed.

Lemma batch_split l A t c ds rem l' T :
  score_all l true t c = Ok (l', T) -> 0 < T -> distribute_amount l A true t c = Ok (ds, rem) ->
  sumN (map (fun i => i_score i * A / T) l') <= A
  /\ map d_addr ds = map i_addr (List.filter (fun i => ONE_EGLD <=? cut A T i) l')
  /\ (forall i, In i l' -> ONE_EGLD <= cut A T i -> exists d, In d ds /\ d_addr d = i_addr i /\ cut A T i <= d_amt d).
Proof.
  intros Es HT Ed. destruct (deleg_shares _ _ _ _ _ _ _ _ Es HT Ed) as [H1 H2]. split_and!; [exact H1| |].
  - rewrite (more_addr _ _ H2). apply served_filter.
  - intros i Hin Hc. destruct (in_served A T l' i Hin Hc) as (d & Hd & Ha & He).
    destruct (more_amt _ _ d H2 Hd) as (d' & ? & ? & ?). exists d'. split_and!; [done|congruence|lia].
Qed.

Lemma sum_le_top (l : list sinfo) i : (forall j, In j l -> i_score j <= i_score i) -> sumN (map i_score l) <= N.of_nat (length l) * i_score i.
Proof.
  induction l as [|a l IH]; intros H; [cbn; lia|].
  assert (sumN (map i_score l) <= N.of_nat (length l) * i_score i) by (apply IH; intros j Hj; apply H; by right).
  assert (i_score a <= i_score i) by (apply H; by left).
  cbn [map sumN]. replace (N.of_nat (length (a :: l))) with (N.of_nat (length l) + 1) by (cbn [length]; lia). lia.
Qed.

Lemma top_served l A t c ds rem l' T i :
  score_all l true t c = Ok (l', T) -> 0 < T -> distribute_amount l A true t c = Ok (ds, rem) ->
  N.of_nat (length l) * ONE_EGLD <= A ->
  In i l' -> (forall j, In j l' -> i_score j <= i_score i) ->
  (forall s, i_space i = Some s -> ONE_EGLD <= s) ->
  exists d, In d ds /\ d_addr d = i_addr i /\ ONE_EGLD <= d_amt d.
Proof.
  intros Es HT Ed HA Hin Htop Hsp. destruct (batch_split _ _ _ _ _ _ _ _ Es HT Ed) as (_ & _ & H).
  pose proof (score_all_inv _ _ _ _ _ _ Es) as [_ HTs]. pose proof (score_all_addr _ _ _ _ _ _ Es) as [Hl _].
  assert (Hlen : length l' = length l) by (rewrite <- (map_length i_addr l'), <- (map_length i_addr l); by f_equal).
  assert (MIN_EGLD <= share A (sumN (map i_score l')) i).
  { apply top_share; [lia|done|by apply sum_le_top|]. rewrite Hlen. exact HA. }
  assert (Hc : ONE_EGLD <= cut A T i).
  { unfold cut. rewrite HTs. unfold share in *. change ONE_EGLD with MIN_EGLD in *. destruct (i_space i) as [s|]; [|done].
    specialize (Hsp s eq_refl). lia. }
  destruct (H i Hin Hc) as (d & ? & ? & ?). exists d. split_and!; [done|done|lia].
Qed.

Lemma shares_add_up (scores : list N) A :
  sumN scores <> 0 -> sumN (map (fun s => s * A / sumN scores) scores) <= A.
Proof.
  intros H. assert (forall l, sumN (map (fun s => s * A / sumN scores) l) * sumN scores <= sumN l * A) as K.
  { induction l as [|s l IH]; [cbn; lia|]. cbn [map sumN].
    pose proof (N.mul_div_le (s * A) (sumN scores) H). rewrite !N.mul_add_distr_r. rewrite (N.mul_comm (s * A / _)). lia. }
  specialize (K scores). apply N.mul_le_mono_pos_r with (sumN scores); [lia|]. lia.
Qed.

Lemma operator_manager u w : operator u w -> manager_b u w = true.
Proof.
  intros (_ & Hm & _). unfold manager_b. apply orb_true_iff. destruct Hm as [->|H]; [right; apply N.eqb_refl|left].
  apply existsb_exists. exists u. split; [by apply elem_of_list_In|apply N.eqb_refl].
Qed.

Lemma deleg_batch_works w u o sc :
  Reachable w -> operator u w -> fits_queue o (pending_egld w) ->
  c_score (w_cfg w) = Some sc -> distinct_bounds sc -> N.of_nat (length (w_dl w)) < 2 ^ 32 ->
  (forall c p, c ∈ w_dl w -> w_pv w !! c = Some p -> within_cap p) ->
  (exists c p, c ∈ w_dl w /\ w_pv w !! c = Some p /\ has_room p) ->
  snd (step w (OTx u 0 [] (DelegatePending o))) = SOk.
Proof.
  intros Hr Ho Hq Hs Hd Hl HF Hex. pose proof (operator_manager u w Ho) as Hm. destruct Ho as (Hu & _ & HI & Ha).
  pose proof (lists w Hr) as L. pose proof (cfgok w Hr) as (_ & _ & HC).
  eapply delegate_pending_works; try eassumption. split_and!; [exact Hl| |exact Hex].
  apply list.Forall_forall. intros c Hc. destruct (l_rec _ _ _ _ L c Hc) as [p Hp]. exists p.
  split_and!; [done|exact (HF c p Hc Hp)|exact (HC c p Hp)].
Qed.

Lemma undel_batch_works w u o sc :
  Reachable w -> operator u w -> fits_queue o (unstake_queue w) ->
  c_score (w_cfg w) = Some sc -> distinct_bounds sc -> N.of_nat (length (w_ul w)) < 2 ^ 32 ->
  c_maxsel (w_cfg w) < 2 ^ 64 -> c_maxsel (w_cfg w) mod 2 ^ 32 <> 0 ->
  (forall c p, c ∈ w_ul w -> w_pv w !! c = Some p -> net_zero_or_one p) ->
  (exists c p, c ∈ w_ul w /\ w_pv w !! c = Some p /\ 0 < net_stake p) ->
  snd (step w (OTx u 0 [] (UnDelegatePending o))) = SOk
  /\ forall c p, c ∈ w_ul w -> w_pv (fst (step w (OTx u 0 [] (UnDelegatePending o)))) !! c = Some p -> net_zero_or_one p.
Proof.
  intros Hr Ho Hq Hs Hd Hl HU1 HU2 HF Hex. pose proof (operator_manager u w Ho) as Hm. destruct Ho as (Hu & _ & HI & Ha).
  pose proof (lists w Hr) as L. pose proof (cfgok w Hr) as (_ & _ & HC).
  assert (Hok : snd (step w (OTx u 0 [] (UnDelegatePending o))) = SOk).
  { eapply undelegate_pending_works; try eassumption. split_and!; [exact Hl| |].
    - apply list.Forall_forall. intros c Hc. pose proof Hc as Hc'. apply (l_same _ _ _ _ L) in Hc'.
      destruct (l_rec _ _ _ _ L c Hc') as [p Hp]. exists p. split_and!; [done|exact (HF c p Hc Hp)|exact (HC c p Hp)].
    - destruct Hex as (c & p & H1 & H2 & H3). exists c, p. split_and!; try done. unfold net_stake in H3. lia. }
  split; [exact Hok|]. intros c p Hc Hp.
  destruct (undelegate_batch_effect w u 0 [] o Hr Hok) as (l & _ & _ & _ & _ & Hnd & Hsel & _ & Hpv & _).
  rewrite Hpv in Hp. destruct (w_pv w !! c) as [q|] eqn:Eq; [|done]. cbn in Hp. injection Hp as <-.
  pose proof (HF c q Hc Eq) as Hq'. unfold net_zero_or_one in *. cbn.
  assert ((exists a, In (c, a) l) \/ ~ exists a, In (c, a) l) as [(a & Hin)|Hno].
  { destruct (decide (c ∈ map fst l)) as [D|D]; [left|right].
    - apply elem_of_list_In, in_map_iff in D as ([c' a] & H1 & H2). cbn in H1. subst. by exists a.
    - intros (a & Ha'). apply D, elem_of_list_In. change c with (fst (c, a)). by apply in_map. }
  - assert (Ha' : amount_for c l = a).
    { clear -Hnd Hin. induction l as [|[c' a'] l IH]; [done|]. cbn in Hnd. apply list.NoDup_cons in Hnd as [Hn Hnd].
      unfold amount_for. cbn [map sumN fst snd]. fold (amount_for c l). destruct Hin as [[= -> ->]|Hin].
      - rewrite N.eqb_refl. enough (amount_for c l = 0) by lia. clear -Hn. induction l as [|[x y] l IH]; [done|].
        unfold amount_for. cbn [map sumN fst snd]. fold (amount_for c l). cbn in Hn. apply not_elem_of_cons in Hn as [H1 H2].
        destruct (N.eqb_spec x c); [congruence|]. rewrite IH by done. done.
      - destruct (N.eqb_spec c' c) as [->|]; [|rewrite IH by done; lia]. exfalso. apply Hn. apply elem_of_list_In.
        change c with (fst (c, a)). by apply in_map. }
    rewrite Ha'. destruct (Hsel c a Hin) as (_ & _ & p & Hp & _ & K). rewrite Hp in Eq. injection Eq as ->. change MIN_EGLD with ONE_EGLD in K. lia.
  - assert (Ha' : amount_for c l = 0).
    { clear -Hno. induction l as [|[x y] l IH]; [done|]. unfold amount_for. cbn [map sumN fst snd]. fold (amount_for c l).
      destruct (N.eqb_spec x c) as [->|]; [destruct Hno; exists y; by left|]. rewrite IH; [done|].
      intros (a & Ha). apply Hno. exists a. by right. }
    rewrite Ha'. replace (p_pun q + 0) with (p_pun q) by lia. done.
Qed.
