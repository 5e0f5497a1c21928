(** L_Sel.v — provider selection and distribution. *)
From Verif Require Export L_Inv2.

(** * Selected providers *)
Definition from_prov (pv : gmap N prov) (i : sinfo) : Prop :=
  exists p, pv !! i_addr i = Some p /\ mk_info (i_addr i) p = Ok (set_i_score 0 i).

Lemma mk_info_inv c p i :
  mk_info c p = Ok i ->
  i_addr i = c /\ i_score i = 0 /\ i_total i = p_total p /\ i_apy i = p_apy p /\ i_nodes i = p_nodes p
  /\ avail p = Ok (i_avail i)
  /\ (p_cap p = 0 /\ i_space i = None \/ p_cap p <> 0 /\ p_total p <= p_cap p /\ i_space i = Some (p_cap p - p_total p)).
Proof.
  unfold mk_info. intros H. apply rbind_ok in H as [s [E H]]. apply rbind_ok in H as [a [E1 H]].
  rstep H. cbn. split_and!; try done.
  destruct (p_cap p =? 0) eqn:B.
  - rstep E. left. split; [lia|done].
  - rstep E. right. split_and!; try done; lia.
Qed.

Lemma mk_info_from pv c p i :
  pv !! c = Some p -> mk_info c p = Ok i -> i_addr i = c /\ from_prov pv i.
Proof.
  intros Hp H. pose proof (mk_info_inv _ _ _ H) as (Ha & Hs & _). split; [done|].
  exists p. rewrite Ha. split; [done|]. rewrite H. f_equal. destruct i; cbn in *. by subst.
Qed.

Lemma sel_deleg_loop_inv l pv maxp n is t :
  sel_deleg_loop l pv maxp n = Ok (is, t) ->
  map i_addr is `sublist_of` l
  /\ Forall (fun i => from_prov pv i /\ i_score i = 0 /\
             exists p, pv !! i_addr i = Some p /\ prov_eligible p = Ok true) is
  /\ t = sumN (map i_avail is)
  /\ (n < maxp -> n + N.of_nat (length is) <= maxp).
Proof.
  revert n is t. induction l as [|c r IH]; intros n is t H.
  - cbn in H. injection H as <- <-. cbn. split_and!; try done; try (by constructor); lia.
  - cbn [sel_deleg_loop] in H. apply rbind_ok in H as [p [E1 H]]. rstep E1.
    apply rbind_ok in H as [e [E2 H]]. destruct e.
    + apply rbind_ok in H as [a [E3 H]]. apply rbind_ok in H as [i [E4 H]].
      destruct (mk_info_from _ _ _ _ E1 E4) as [Ha Hf].
      pose proof (mk_info_inv _ _ _ E4) as (_ & Hz & _ & _ & _ & Hav & _).
      assert (i_avail i = a) as Haa by congruence.
      assert (from_prov pv i /\ i_score i = 0 /\ exists p, pv !! i_addr i = Some p /\ prov_eligible p = Ok true) as Hi.
      { split_and!; [done|done|]. exists p. by rewrite Ha. }
      destruct (n + 1 =? maxp) eqn:B.
      * injection H as <- <-. cbn. split_and!.
        -- rewrite Ha. constructor. apply sublist_nil_l.
        -- by constructor.
        -- lia.
        -- lia.
      * apply rbind_ok in H as [[is' t'] [E5 H]]. injection H as <- <-.
        apply IH in E5 as (H1 & H2 & -> & H4). cbn. split_and!.
        -- rewrite Ha. by constructor.
        -- by constructor.
        -- lia.
        -- lia.
    + destruct (n =? maxp) eqn:B.
      * injection H as <- <-. cbn. split_and!; try done; try (apply sublist_nil_l); lia.
      * apply IH in H as (H1 & H2 & H3 & H4). split_and!; try done. by constructor.
Qed.

Lemma sel_undel_loop_inv l pv hard maxp average rem n is t :
  sel_undel_loop l pv hard maxp average rem n = Ok (is, t) ->
  map i_addr is `sublist_of` l
  /\ Forall (fun i => from_prov pv i /\ i_score i = 0) is
  /\ t = sumN (map i_avail is)
  /\ (is = [] \/ n + N.of_nat (length is) <= hard).
Proof.
  revert rem n is t. induction l as [|c r IH]; intros rem n is t H.
  - cbn in H. injection H as <- <-. cbn. split_and!; try done; try (by constructor); by left.
  - cbn [sel_undel_loop] in H. apply rbind_ok in H as [h [E0 H]].
    assert (h <= hard) as Hh.
    { unfold to_usize in E0. destruct (hard <? U64); [|done]. injection E0 as <-. apply N.mod_le. done. }
    destruct (h <=? n) eqn:B1.
    { injection H as <- <-. cbn. split_and!; try done; try (apply sublist_nil_l); by left. }
    destruct ((maxp <=? n) && (rem =? 0)) eqn:B2.
    { injection H as <- <-. cbn. split_and!; try done; try (apply sublist_nil_l); by left. }
    apply rbind_ok in H as [p [E1 H]]. rstep E1. apply rbind_ok in H as [s [E2 H]].
    apply rbind_ok in H as [tk [E3 H]]. destruct (0 <? tk) eqn:B3.
    + apply rbind_ok in H as [i [E4 H]]. apply rbind_ok in H as [rem' [E5 H]].
      apply rbind_ok in H as [[is' t'] [E6 H]]. injection H as <- <-.
      destruct (mk_info_from _ _ _ _ E1 E4) as [Ha Hf].
      pose proof (mk_info_inv _ _ _ E4) as (_ & Hz & _ & _ & _ & Hav & _).
      assert (i_avail i = s) as Haa by congruence.
      apply IH in E6 as (H1 & H2 & -> & H4). cbn. split_and!.
      * rewrite Ha. by constructor.
      * by constructor.
      * lia.
      * right. destruct H4 as [->|H4]; cbn; lia.
    + apply IH in H as (H1 & H2 & H3 & H4). split_and!; try done. by constructor.
Qed.

(** * Scores are attached, nothing else changes *)
Lemma score_all_inv l b t c l' s :
  score_all l b t c = Ok (l', s) ->
  Forall2 (fun i i' => i' = set_i_score (i_score i') i /\ score_of i b t c = Ok (i_score i')) l l'
  /\ s = sumN (map i_score l').
Proof.
  revert l' s. induction l as [|i r IH]; intros l' s H; cbn [score_all] in H.
  - injection H as <- <-. split; [constructor|done].
  - apply rbind_ok in H as [x [E1 H]]. apply rbind_ok in H as [[r' t'] [E2 H]]. injection H as <- <-.
    apply IH in E2 as [H1 ->]. split; [|done]. constructor; [|done]. done.
Qed.

Lemma score_all_addr l b t c l' s :
  score_all l b t c = Ok (l', s) -> map i_addr l' = map i_addr l /\ map i_avail l' = map i_avail l.
Proof.
  intros H. apply score_all_inv in H as [H _]. induction H as [|i i' r r' [E _] _ IH]; [done|].
  cbn. rewrite E. cbn. destruct IH as [-> ->]. done.
Qed.

(** * Distribution *)
(** what holds of one selection with respect to the info it was made from *)
Definition dist_ok (b : bool) (i : sinfo) (d : dsel) : Prop :=
  d_addr d = i_addr i /\ MIN_EGLD <= d_amt d
  /\ (if b then
        match i_space i with
        | Some s => d_amt d <= s /\ d_space d = Some (s - d_amt d)
        | None => d_space d = None
        end
      else d_amt d <= i_avail i /\ d_space d = Some (i_avail i - d_amt d)
           /\ (i_avail i - d_amt d = 0 \/ MIN_EGLD <= i_avail i - d_amt d)).

(** selections made from a sub-list of the infos, in order *)
Inductive picks (P : sinfo -> dsel -> Prop) : list sinfo -> list dsel -> Prop :=
| picks_nil : picks P [] []
| picks_skip i l ds : picks P l ds -> picks P (i :: l) ds
| picks_take i l d ds : P i d -> picks P l ds -> picks P (i :: l) (d :: ds).

Lemma picks_sublist (P : sinfo -> dsel -> Prop) l ds :
  (forall i d, P i d -> d_addr d = i_addr i) -> picks P l ds ->
  map d_addr ds `sublist_of` map i_addr l.
Proof.
  intros HP. induction 1 as [|i l ds _ IH|i l d ds Hd _ IH]; cbn; [constructor| |].
  - by constructor.
  - rewrite (HP _ _ Hd). by constructor.
Qed.

Lemma picks_len P l ds : picks P l ds -> (length ds <= length l)%nat.
Proof. induction 1; cbn; lia. Qed.

Lemma picks_forall P l ds (Q : sinfo -> Prop) :
  picks P l ds -> Forall Q l -> Forall (fun d => exists i, Q i /\ P i d) ds.
Proof.
  induction 1 as [|i l ds _ IH|i l d ds Hd _ IH]; intros HF; inversion HF; subst.
  - constructor.
  - auto.
  - constructor; eauto.
Qed.

Lemma provider_amount_undel i total rem ts a :
  provider_amount i total rem ts false = Ok a ->
  a = 0 \/ a <= rem /\ a <= i_avail i /\ (i_avail i - a = 0 \/ MIN_EGLD <= i_avail i - a).
Proof.
  pose proof MIN_pos as HM.
  unfold provider_amount. intros H. apply rbind_ok in H as [pr [_ H]].
  apply rbind_ok in H as [lf [E H]]. rstep E.
  destruct (_ <? MIN_EGLD) eqn:B1.
  - destruct (i_avail i <=? rem) eqn:B2.
    + rstep H. right. lia.
    + apply rbind_ok in H as [d [E1 H]]. rstep E1. destruct (i_avail i - rem <? MIN_EGLD) eqn:B3; rstep H; [by left|].
      right. lia.
  - rstep H. right. lia.
Qed.

Lemma provider_amount_deleg i total rem ts a :
  provider_amount i total rem ts true = Ok a ->
  a <= rem /\ match i_space i with Some s => a <= s | None => True end.
Proof.
  unfold provider_amount. intros H. apply rbind_ok in H as [pr [_ H]].
  destruct (i_space i); rstep H; lia.
Qed.

Lemma distribute_loop_inv l amount rem ts b ds rem' :
  distribute_loop l amount rem ts b = Ok (ds, rem') ->
  picks (dist_ok b) l ds /\ damts ds + rem' = rem.
Proof.
  pose proof MIN_pos as HM.
  revert rem ds rem'. induction l as [|i r IH]; intros rem ds rem' H; cbn [distribute_loop] in H.
  - injection H as <- <-. split; [constructor|unfold damts; cbn; lia].
  - apply rbind_ok in H as [a [E1 H]]. destruct (MIN_EGLD <=? a) eqn:B.
    + apply rbind_ok in H as [rem1 [E2 H]]. rstep E2.
      apply rbind_ok in H as [sp [E3 H]]. apply rbind_ok in H as [[ds' rem''] [E4 H]].
      injection H as <- <-. apply IH in E4 as [H1 H2]. split.
      * apply picks_take; [|done]. unfold dist_ok; cbn. split_and!; [done|lia|].
        destruct b.
        -- destruct (i_space i); rstep E3; done.
        -- rstep E3. apply provider_amount_undel in E1 as [->|(Ha & Hb & Hc)]; [lia|done].
      * unfold damts in *; cbn. lia.
    + apply IH in H as [H1 H2]. split; [by constructor|done].
Qed.

(** after the leftover was handed out *)
Definition final_ok (b : bool) (i : sinfo) (d : dsel) : Prop :=
  d_addr d = i_addr i /\ MIN_EGLD <= d_amt d
  /\ (if b then match i_space i with Some s => d_amt d <= s | None => True end
      else d_amt d <= i_avail i
           /\ (i_avail i - d_amt d = 0 \/ MIN_EGLD <= i_avail i - d_amt d)).

Lemma dist_final b i d : dist_ok b i d -> final_ok b i d.
Proof.
  unfold dist_ok, final_ok. intros (H1 & H2 & H3). split_and!; try done.
  destruct b; [destruct (i_space i); tauto|tauto].
Qed.

Lemma picks_impl (P Q : sinfo -> dsel -> Prop) l ds :
  (forall i d, P i d -> Q i d) -> picks P l ds -> picks Q l ds.
Proof.
  intros HPQ. induction 1; [apply picks_nil|by apply picks_skip|apply picks_take; auto].
Qed.

Lemma remaining_loop_inv l ds rem b ds' rem' :
  picks (dist_ok b) l ds -> remaining_loop ds rem b = Ok (ds', rem') ->
  picks (final_ok b) l ds' /\ damts ds' + rem' = damts ds + rem /\ length ds' = length ds.
Proof.
  pose proof MIN_pos as HM.
  intros Hp. revert rem ds' rem'. induction Hp as [|i l ds _ IH|i l d ds Hd Hp IH]; intros rem ds' rem' H.
  - cbn in H. injection H as <- <-. split_and!; [constructor|done|done].
  - apply IH in H as (H1 & H2 & H3). split_and!; try done. by constructor.
  - cbn [remaining_loop] in H. destruct (rem =? 0) eqn:B0.
    { injection H as <- <-. assert (rem = 0) as -> by lia. split_and!; [|done|done].
      apply picks_take; [by apply dist_final|]. eapply picks_impl; [|exact Hp].
      intros; by apply dist_final. }
    apply rbind_ok in H as [[d' rem1] [E1 H]]. apply rbind_ok in H as [[r' rem2] [E2 H]].
    injection H as <- <-. apply IH in E2 as (H1 & H2 & H3).
    assert (Hd' : final_ok b i d' /\ d_amt d' + rem1 = d_amt d + rem).
    { pose proof Hd as Hd0. destruct Hd as (Ha & Hm & Hs). destruct b; cbn in E1.
      - destruct (i_space i) as [s|] eqn:Ei.
        + destruct Hs as [Hs1 Hs2]. rewrite Hs2 in E1.
          destruct (0 <? _) eqn:B1.
          * apply rbind_ok in E1 as [x [E3 E1]]. rstep E3. injection E1 as <- <-.
            unfold final_ok, add_amount; cbn. rewrite Ei. split_and!; try done; lia.
          * injection E1 as <- <-. split; [by apply dist_final|done].
        + rewrite Hs in E1. injection E1 as <- <-.
          unfold final_ok, add_amount; cbn. rewrite Ei. split_and!; try done; lia.
      - destruct Hs as (Hs1 & Hs2 & Hs3). rewrite Hs2 in E1. cbn in E1.
        apply rbind_ok in E1 as [lf [E3 E1]]. rstep E3.
        destruct (_ && _) eqn:B1.
        + apply rbind_ok in E1 as [x [E4 E1]]. rstep E4. injection E1 as <- <-.
          unfold final_ok, add_amount; cbn. split_and!; try done; lia.
        + injection E1 as <- <-. split; [by apply dist_final|done]. }
    destruct Hd' as [Hd' Heq]. split_and!; [by apply picks_take| |cbn; by rewrite H3].
    unfold damts in *; cbn. lia.
Qed.

Lemma distribute_amount_inv l amount b t c ds rem :
  distribute_amount l amount b t c = Ok (ds, rem) ->
  exists l', picks (final_ok b) l' ds /\ map i_addr l' = map i_addr l
    /\ Forall2 (fun i i' => i' = set_i_score (i_score i') i) l l'
    /\ damts ds + rem = amount /\ (length ds <= length l)%nat.
Proof.
  unfold distribute_amount. intros H. apply rbind_ok in H as [[l' s] [E1 H]].
  apply rbind_ok in H as [[ds1 rem1] [E2 H]].
  pose proof (score_all_addr _ _ _ _ _ _ E1) as [Ha _].
  apply score_all_inv in E1 as [Hf _].
  apply distribute_loop_inv in E2 as [Hp Hs].
  assert (Hl : length l' = length l) by (by rewrite <- (map_length i_addr l'), Ha, map_length).
  exists l'. destruct (rem1 =? 0) eqn:B.
  - injection H as <- <-. split_and!; try done.
    + eapply picks_impl; [|exact Hp]. intros; by apply dist_final.
    + eapply Forall2_impl; [exact Hf|]. by intros ? ? [? _].
    + lia.
    + rewrite <- Hl. by eapply picks_len.
  - destruct (remaining_loop_inv _ _ _ _ _ _ Hp H) as (H1 & H2 & H3). split_and!; try done.
    + eapply Forall2_impl; [exact Hf|]. by intros ? ? [? _].
    + lia.
    + rewrite <- Hl. by eapply picks_len.
Qed.

(** * Batches: the facts used everywhere *)
Definition deleg_sel_ok (pv : gmap N prov) (d : dsel) : Prop :=
  exists p, pv !! d_addr d = Some p /\ p_elig p = true /\ MIN_EGLD <= d_amt d
    /\ (p_cap p = 0 \/
        d_amt d + p_total p <= p_cap p /\ p_staked p + p_pst p - p_pun p + MIN_EGLD <= p_cap p).
Definition undel_sel_ok (pv : gmap N prov) (d : dsel) : Prop :=
  exists p, pv !! d_addr d = Some p /\ MIN_EGLD <= d_amt d
    /\ p_pun p + d_amt d <= p_staked p + p_pst p
    /\ (p_staked p + p_pst p - p_pun p = d_amt d
        \/ MIN_EGLD <= p_staked p + p_pst p - p_pun p - d_amt d).

Lemma from_prov_score pv s i : from_prov pv (set_i_score s i) <-> from_prov pv i.
Proof. done. Qed.

Lemma forall2_from pv (P : sinfo -> Prop) l l' :
  Forall2 (fun i i' => i' = set_i_score (i_score i') i) l l' ->
  (forall s i, P i -> P (set_i_score s i)) ->
  Forall (fun i => from_prov pv i /\ P i) l -> Forall (fun i => from_prov pv i /\ P i) l'.
Proof.
  intros H HP. induction H as [|i i' l l' E _ IH]; intros HF; inversion HF as [|? ? [Hf Hp] Hr]; subst.
  - constructor.
  - constructor; [|auto]. rewrite E. split; [by apply from_prov_score|by apply HP].
Qed.

Lemma get_deleg_inv a dl ul pv g c ds c1 :
  get_delegation_contract a true dl ul pv g c = Ok (ds, c1) ->
  map d_addr ds `sublist_of` dl
  /\ Forall (deleg_sel_ok pv) ds
  /\ (N.of_nat (length dl) < U32 -> N.of_nat (length ds) <= c_maxsel g \/ (a < MIN_EGLD \/ c_maxsel g = 0))
  /\ damts ds <= a /\ c1 = set_pend (pend c + (a - damts ds)) c.
Proof.
  unfold get_delegation_contract. intros H. apply rbind_ok in H as [[] [E1 H]]. rstep E1.
  apply rbind_ok in H as [[sel total] [E2 H]]. unfold select_deleg in E2.
  apply rbind_ok in E2 as [maxp [E3 E2]].
  apply rbind_ok in H as [[] [E4 H]]. apply rbind_ok in H as [sc [E5 H]].
  apply rbind_ok in H as [[ds1 rem] [E6 H]]. injection H as <- <-.
  apply sel_deleg_loop_inv in E2 as (Hsub & Hsel & Ht & Hlen).
  apply distribute_amount_inv in E6 as (l' & Hp & Ha & Hf2 & Hsum & Hl).
  split_and!.
  - etrans; [|exact Hsub]. rewrite <- Ha. eapply picks_sublist; [|exact Hp]. by intros i d [? _].
  - assert (HF : Forall (fun i => from_prov pv i /\ (exists p, pv !! i_addr i = Some p /\ prov_eligible p = Ok true)) l').
    { eapply (forall2_from pv (fun i => exists p, pv !! i_addr i = Some p /\ prov_eligible p = Ok true)); [exact Hf2|done|].
      eapply Forall_impl; [|exact Hsel]. cbn. tauto. }
    pose proof (picks_forall _ _ _ _ Hp HF) as HQ. eapply Forall_impl; [|exact HQ].
    cbn. intros d (i & [[p [Hp1 Hp2]] [p' [Hp3 Hp4]]] & Hd). assert (p' = p) as -> by congruence.
    apply mk_info_inv in Hp2 as (_ & _ & _ & _ & _ & Hav & Hsp). cbn in *.
    destruct Hd as (Hda & Hdm & Hds). exists p. rewrite Hda. split_and!; try done.
    + unfold prov_eligible in Hp4. destruct (p_elig p); [done|discriminate Hp4].
    + unfold prov_eligible in Hp4. destruct (p_elig p); [|discriminate Hp4]. cbn in Hp4.
      destruct Hsp as [[Hc _]|(Hc & Hle & Hspc)]; [by left|right].
      rewrite Hspc in Hds. split; [lia|].
      destruct (p_cap p =? 0) eqn:B; [lia|]. apply rbind_ok in Hp4 as [x [Ex Hp4]].
      unfold avail in Ex. rstep Ex. apply rbind_ok in Hp4 as [y [Ey Hp4]]. rstep Ey.
      injection Hp4 as Hp4. lia.
  - clear Hsum. intros HU. unfold calc_max_providers in E3. apply rbind_ok in E3 as [q [E7 E3]]. rstep E7.
    unfold to_usize in E3. destruct (_ <? U64); [|discriminate E3]. injection E3 as E3.
    rewrite N.mod_small in E3 by lia.
    destruct (decide (a < MIN_EGLD)) as [?|Ha1]; [tauto|].
    destruct (decide (c_maxsel g = 0)) as [?|Ha2]; [tauto|]. left.
    assert (1 <= a / MIN_EGLD).
    { apply N.div_le_lower_bound; [done|]. lia. }
    assert (N.of_nat (length dl) <> 0) by lia.
    assert (0 < maxp) by lia. specialize (Hlen ltac:(lia)). lia.
  - lia.
  - f_equal. lia.
Qed.

Lemma get_undel_inv a dl ul pv g c ds c1 :
  get_delegation_contract a false dl ul pv g c = Ok (ds, c1) ->
  map d_addr ds `sublist_of` ul
  /\ Forall (undel_sel_ok pv) ds
  /\ N.of_nat (length ds) <= c_maxsel g
  /\ damts ds <= a /\ c1 = set_pfu (pfu c + (a - damts ds)) c.
Proof.
  unfold get_delegation_contract. intros H. apply rbind_ok in H as [[] [E1 H]]. rstep E1.
  apply rbind_ok in H as [[sel total] [E2 H]]. unfold select_undel in E2.
  apply rbind_ok in E2 as [maxp [E3 E2]].
  apply rbind_ok in E2 as [pa [E3a E2]].
  apply rbind_ok in E2 as [pm [E3b E2]].
  apply rbind_ok in E2 as [av [E3c E2]].
  apply rbind_ok in H as [[] [E4 H]]. apply rbind_ok in H as [sc [E5 H]].
  apply rbind_ok in H as [[ds1 rem] [E6 H]]. injection H as <- <-.
  apply sel_undel_loop_inv in E2 as (Hsub & Hsel & Ht & Hlen).
  apply distribute_amount_inv in E6 as (l' & Hp & Ha & Hf2 & Hsum & Hl).
  split_and!.
  - etrans; [|exact Hsub]. rewrite <- Ha. eapply picks_sublist; [|exact Hp]. by intros i d [? _].
  - assert (HF : Forall (fun i => from_prov pv i /\ True) l').
    { eapply (forall2_from pv (fun _ => True)); [exact Hf2|done|].
      eapply Forall_impl; [|exact Hsel]. cbn. tauto. }
    pose proof (picks_forall _ _ _ _ Hp HF) as HQ. eapply Forall_impl; [|exact HQ].
    cbn. intros d (i & [[p [Hp1 Hp2]] _] & Hd).
    apply mk_info_inv in Hp2 as (_ & _ & _ & _ & _ & Hav & _). cbn in *.
    unfold avail in Hav. rstep Hav.
    destruct Hd as (Hda & Hdm & Hds). exists p. rewrite Hda. split_and!; try done; lia.
  - destruct Hlen as [->|Hlen]; cbn in *; lia.
  - lia.
  - f_equal. lia.
Qed.
