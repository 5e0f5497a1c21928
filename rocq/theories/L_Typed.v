(** L_Typed.v — everything stored fits its type if the arguments do (C113). *)
From Verif Require Export L_Track.
From Verif Require Import L_Lists L_Frame L_Ust L_Books L_Batch L_Net L_Access.
Open Scope N_scope.

Lemma args_fit w o : match o with OTx _ _ _ ep => snd (step w o) = SOk -> args_ok ep = true | _ => True end.
Proof.
  destruct o as [caller a pays ep| | | | | | | | |]; try done. unfold step. cbv zeta.
  destruct (exec_tx caller a pays ep (set_log [] w)) as [w'|e] eqn:E; [|done]. intros _.
  by apply exec_tx_inv in E as (_ & _ & ? & _).
Qed.

Definition prov_small (R : N) (k : pool) (c : addr) (p : prov) : Prop :=
  c < 2 ^ 256 /\ p_admin p < 2 ^ 256 /\ p_nodes p < 2 ^ 64 /\ p_apy p < 2 ^ 64 /\ fits_big (p_total p) /\ fits_big (p_cap p)
  /\ pend k + p_pst p + p_staked p + p_unstaked p <= R /\ p_pun p <= R.
Definition cfg_small (M : N) (g : cfg) : Prop :=
  c_acc g < 2 ^ 256 /\ c_rpe g < 2 ^ 64 /\ c_minr g < 2 ^ 64 /\ c_unbond g < 2 ^ 64 /\ c_maxaddr g < 2 ^ 32
  /\ (forall s, c_score g = Some s -> fits_scoring s) /\ (forall a, c_migr g = Some a -> a < 2 ^ 256)
  /\ Forall (fun a => a < 2 ^ 256) (c_mgrs g) /\ N.of_nat (List.length (c_mgrs g)) <= M.
Definition prov_all (R : N) (k : pool) (pv : gmap N prov) : Prop :=
  pend k <= R /\ forall c p, pv !! c = Some p -> prov_small R k c p.
Definition white_small (R : N) (k : pool) (x : call) : Prop := match x with KWhite _ a _ => pend k + a <= R | _ => True end.
Definition whites (R : N) (k : pool) (ks : list call) : Prop := Forall (white_small R k) ks.
Definition Small (R M T : N) (w : world) : Prop :=
  cfg_small M (w_cfg w) /\ prov_all R (w_pool w) (w_pv w) /\ whites R (w_pool w) (unanswered w) /\ w_last w <= T.

Lemma big_small k R : k <= R -> R < 2 ^ 256 -> fits_big k.
Proof.
  intros H HR. unfold fits_big. assert (width k <= 32)%nat; [|lia]. apply width_le. replace (256 ^ N.of_nat 32) with (2 ^ 256) by done. lia.
Qed.
Lemma small_fits R M T w : Reachable w -> Small R M T w -> R < 2 ^ 256 -> M < 2 ^ 32 -> T < 2 ^ 64 -> fits w.
Proof.
  intros Hr (HG & HP & _ & HL) HR HM HT. destruct HG as (G1 & G2 & G3 & G4 & G5 & G6 & G7 & G8 & G9). destruct HP as [_ HP].
  unfold fits. cbn zeta. repeat (split; [done|]). split; [lia|].
  destruct (lists w Hr) as [_ _ Hs Hrec _ _ _].
  assert (Hdl : Forall (fun a => a < 2 ^ 256) (w_dl w)).
  { apply list.Forall_forall. intros c Hc. destruct (Hrec c Hc) as [p Hp]. by apply HP in Hp as [? _]. }
  split; [done|]. split.
  { apply list.Forall_forall. intros c Hc. apply Hs in Hc. rewrite list.Forall_forall in Hdl. by apply Hdl. }
  split.
  - intros c p Hp. apply HP in Hp as (P1 & P2 & P3 & P4 & P5 & P6 & P7 & P8). split; [done|].
    split; [done|]. split; [done|]. split; [done|].
    repeat constructor; try done; apply (big_small _ R); try done; lia.
  - intros e n Hn. pose proof (ust w Hr) as HU. destruct (u_map _ _ _ _ _ HU _ _ Hn) as (Hk & (e0 & Ha) & _).
    destruct (u_epoch _ _ _ _ _ HU _ _ _ Ha) as [_ He]. change U64 with (2 ^ 64) in He. split; [done|lia].
Qed.

(** Preservation, part by part. *)
Lemma prov_mono R R' k k' pv : pend k' + R <= pend k + R' -> R <= R' -> prov_all R k pv -> prov_all R' k' pv.
Proof.
  intros H1 H2 [H3 H4]. split; [lia|]. intros c p Hp. apply H4 in Hp as (P1 & P2 & P3 & P4 & P5 & P6 & P7 & P8).
  repeat (split; [done|]). split; lia.
Qed.
Lemma prov_put R k pv c p : prov_all R k pv -> prov_small R k c p -> prov_all R k (<[c := p]> pv).
Proof.
  intros [H1 H2] H. split; [done|]. intros d q. destruct (decide (c = d)) as [<-|Hn].
  - rewrite lookup_insert. by intros [= <-].
  - rewrite lookup_insert_ne by done. apply H2.
Qed.
Lemma white_mono R R' k k' ks : pend k' + R <= pend k + R' -> whites R k ks -> whites R' k' ks.
Proof. intros H HF. eapply list.Forall_impl; [exact HF|]. intros x. destruct x; cbn; try done. lia. Qed.
Lemma white_perm R k ks ks' : Permutation ks ks' -> whites R k ks -> whites R k ks'.
Proof. intros H1 H2. unfold whites in *. by rewrite <- H1. Qed.
Lemma white_more R k ks w : Forall (white_small R k) ks -> whites R k (unanswered w) ->
  whites R k ((w_calls w ++ ks) ++ map fst (w_res w)).
Proof. intros H1 H2. eapply white_perm; [symmetry; apply unans_new|]. by apply Forall_app. Qed.
Lemma white_less R k w i x r : nth_error (w_res w) i = Some (x, r) -> whites R k (unanswered w) ->
  white_small R k x /\ whites R k (w_calls w ++ map fst (drop_nth i (w_res w))).
Proof. intros H1 H2. eapply white_perm in H2; [|by eapply unans_cb]. by apply list.Forall_cons. Qed.
Lemma split_parts q a : snd (L_Inv.split_of q a) <= a.
Proof. pose proof (L_Inv.split_facts q a) as K. cbv zeta in K. lia. Qed.


Lemma dtos_le c ds : L_Inv2.dtos c ds <= L_Inv2.damts ds.
Proof.
  unfold L_Inv2.dtos, L_Inv2.damts. induction ds as [|d ds IH]; [done|]. cbn. unfold L_Inv2.dto at 1. destruct (d_addr d =? c); lia.
Qed.
Lemma cfg_mono M M' g : M <= M' -> cfg_small M g -> cfg_small M' g.
Proof. intros H (G1 & G2 & G3 & G4 & G5 & G6 & G7 & G8 & G9). repeat (split; [done|]). lia. Qed.
Lemma small_keep R M T w w' x m : w_cfg w' = w_cfg w -> w_pv w' = w_pv w -> unanswered w' = unanswered w -> w_last w' <= T + 1 ->
  pend (w_pool w') <= pend (w_pool w) + x -> Small R M T w -> Small (R + x) (M + m) (T + 1) w'.
Proof.
  intros E1 E2 E3 E4 E5 (HG & HP & HW & HL). unfold Small. rewrite E1, E2, E3. split; [eapply cfg_mono; [|exact HG]; lia|].
  split; [eapply prov_mono; [| |exact HP]; lia|]. split; [|done]. eapply white_mono; [|exact HW]; lia.
Qed.
Lemma small_cfg R M T w g x m : cfg_small (M + m) g -> Small R M T w -> Small (R + x) (M + m) (T + 1) (set_cfg g w).
Proof.
  intros HG' (HG & HP & HW & HL). split; [done|].
  split; [eapply prov_mono; [| |exact HP]; cbn; lia|]. split; [|cbn; lia]. eapply white_mono; [|exact HW]; cbn; lia.
Qed.
Lemma small_new R M T w w' ks x m : w_cfg w' = w_cfg w -> w_pv w' = w_pv w -> w_calls w' = w_calls w ++ ks -> w_res w' = w_res w ->
  w_last w' = w_last w -> pend (w_pool w') <= pend (w_pool w) + x -> Forall (white_small R (w_pool w)) ks ->
  Small R M T w -> Small (R + x) (M + m) (T + 1) w'.
Proof.
  intros E1 E2 E3 E4 E5 E6 Hk (HG & HP & HW & HL). unfold Small, unanswered. rewrite E1, E2, E3, E4, E5.
  split; [eapply cfg_mono; [|exact HG]; lia|]. split; [eapply prov_mono; [| |exact HP]; lia|]. split; [|lia].
  eapply white_mono; [|by apply white_more]. lia.
Qed.
(** a reply *)
Lemma small_reply R M T w w' i k r x m : nth_error (w_res w) i = Some (k, r) -> w_cfg w' = w_cfg w ->
  w_calls w' = w_calls w -> w_res w' = drop_nth i (w_res w) -> w_last w' = w_last w ->
  prov_all (R + x) (w_pool w') (w_pv w') -> pend (w_pool w') <= pend (w_pool w) + x ->
  Small R M T w -> Small (R + x) (M + m) (T + 1) w'.
Proof.
  intros E0 E1 E2 E3 E4 Hp E5 (HG & HP & HW & HL). unfold Small, unanswered. rewrite E1, E2, E3, E4.
  split; [eapply cfg_mono; [|exact HG]; lia|]. split; [done|]. split; [|lia].
  eapply white_mono; [|eapply (white_less _ _ _ _ _ _ E0 HW)]. lia.
Qed.
Lemma swap_forall (P : N -> Prop) a l : Forall P l -> Forall P (swap_remove a l).
Proof.
  intros H. destruct (decide (a ∈ l)) as [Hi|Hi]; [|by rewrite swap_remove_nil].
  rewrite <- (swap_remove_perm a l Hi) in H. by apply list.Forall_cons in H as [_ ?].
Qed.
Lemma swap_shorter a l : (List.length (swap_remove a l) <= List.length l)%nat.
Proof.
  destruct (decide (a ∈ l)) as [Hi|Hi]; [|by rewrite swap_remove_nil].
  pose proof (Permutation_length (swap_remove_perm a l Hi)) as K. cbn in K. lia.
Qed.
Lemma add_all_forall (P : N -> Prop) l : forall s, Forall P l -> Forall P s -> Forall P (add_all l s).
Proof.
  induction l as [|c l IH]; intros s Hl Hs; [done|]. apply list.Forall_cons in Hl as [Hc Hl]. cbn [add_all]. apply IH; [done|].
  apply list.Forall_forall. intros x [->|Hx]%set_insert_in; [done|]. rewrite list.Forall_forall in Hs. by apply Hs.
Qed.
Lemma add_all_shorter l : forall s, (List.length (add_all l s) <= List.length s + List.length l)%nat.
Proof.
  induction l as [|c l IH]; intros s; [cbn; lia|]. cbn [add_all List.length]. etransitivity; [apply IH|].
  destruct (decide (c ∈ s)); [rewrite insert_in by done; lia|rewrite insert_out by done; rewrite app_length; cbn; lia].
Qed.


Lemma maybe_keeps caller r v v' : ust_maybe caller r v v' ->
  w_cfg v' = w_cfg v /\ w_pv v' = w_pv v /\ w_calls v' = w_calls v /\ w_res v' = w_res v /\ w_last v' <= w_last v + 1.
Proof. intros [|n w' _ _ []]; cbn; repeat split; lia. Qed.
Lemma paid_keeps u i v : w_cfg (egld_paid u i v) = w_cfg v /\ w_pv (egld_paid u i v) = w_pv v /\ w_calls (egld_paid u i v) = w_calls v
  /\ w_res (egld_paid u i v) = w_res v /\ w_last (egld_paid u i v) = w_last v.
Proof. unfold egld_paid. by destruct (0 <? i). Qed.
Lemma small_did R M T w o w' s : Lists w -> did w o w' s -> typed o ->
  match o with OTx _ _ _ ep => s = SOk -> args_ok ep = true | _ => True end ->
  Small R M T w -> Small (R + receives w o s w') (M + names_managers w o s w') (T + 1) w'.
Proof.
  intros HL Hd Ht Ha HS. pose proof HS as (HG & HP & HW & HT).
  assert (Hat : forall c p, w_pv w !! c = Some p -> prov_small R (w_pool w) c p) by apply HP.
  destruct Hd; repeat match goal with x := _ |- _ => subst x end.
  - apply (small_keep R M T w); try done; lia.
  - apply (small_keep R M T w); try reflexivity; try exact HS; cbn; [lia|]. pose proof (split_parts (pfu (w_pool w)) a). cbn in *. lia.
  - assert (w_cfg w3 = w_cfg w /\ w_pv w3 = w_pv w /\ w_calls w3 = w_calls w /\ w_res w3 = w_res w /\ w_last w3 <= w_last w + 1) as (E1 & E2 & E3 & E4 & E5).
    { match goal with H : ust_maybe _ _ _ _ |- _ => apply maybe_keeps in H as (-> & -> & -> & -> & Hl) end.
      destruct (paid_keeps caller (fst (split_of (pend (w_pool w)) (redeemed x (w_pool w)))) (set_ls (<[SELF := lbal w SELF]> (<[caller := lbal w caller - x]> (w_ls w))) w)) as (-> & -> & -> & -> & Hl').
      rewrite Hl' in Hl. done. }
    apply (small_keep R M T w); try done; try exact HS; cbn; [by unfold unanswered; cbn; rewrite E3, E4|lia|lia].
  - apply (small_keep R M T w); try reflexivity; try exact HS; cbn; lia.
  - split; [eapply cfg_mono; [|exact HG]; lia|]. split; [|split].
    + destruct HP as [HP1 _]. split; [cbn; lia|]. intros x p. cbn. rewrite add_psts_lookup. destruct (w_pv w !! x) as [q|] eqn:E; [|done].
      cbn. intros [= <-]. apply Hat in E as (P1 & P2 & P3 & P4 & P5 & P6 & P7 & P8). repeat (split; [done|]). cbn.
      pose proof (dtos_le x ds). lia.
    + unfold unanswered. cbn. apply white_more.
      * apply list.Forall_forall. by intros x (d & -> & _)%elem_of_list_fmap.
      * eapply white_mono; [|exact HW]. cbn. lia.
    + cbn. lia.
  - split; [eapply cfg_mono; [|exact HG]; lia|]. split; [|split].
    + destruct HP as [HP1 _]. split; [cbn; lia|]. intros x p. cbn. rewrite add_puns_lookup. destruct (w_pv w !! x) as [q|] eqn:E; [|done].
      cbn. intros [= <-]. pose proof (Hat _ _ E) as (P1 & P2 & P3 & P4 & P5 & P6 & P7 & P8). repeat (split; [done|]). cbn. split; [lia|].
      destruct (decide (x ∈ map d_addr ds)) as [Hin|Hin].
      * destruct (L_Net.dtos_one x ds) as (d & Hd1 & Hd2 & ->); [|done|].
        { eapply sublist_nodup; [eassumption|apply HL]. }
        match goal with H : Forall (undel_sel_ok _) _ |- _ => rewrite list.Forall_forall in H; destruct (H d Hd1) as (q' & Hq1 & Hq2 & Hq3 & Hq4) end.
        rewrite Hd2 in Hq1. assert (q' = q) as -> by congruence. lia.
      * rewrite L_Net.dtos_none by done. lia.
    + unfold unanswered. cbn. apply white_more.
      * apply list.Forall_forall. by intros x (d & -> & _)%elem_of_list_fmap.
      * eapply white_mono; [|exact HW]. cbn. lia.
    + cbn. lia.
  - eapply (small_new R M T w _ [KWithd c]); try reflexivity; try done; cbn; [lia|]. repeat constructor.
  - eapply (small_new R M T w _ [KClaim (w_dl w)]); try reflexivity; try done; cbn; [lia|]. repeat constructor.
  - apply (small_keep R M T w); try reflexivity; try exact HS; cbn; lia.
  - cbn in Ht. destruct Ht as (T1 & T2 & T3 & T4). specialize (Ha eq_refl). cbn in Ha. apply andb_true_iff in Ha as [A1 A2].
    apply N.ltb_lt in A1, A2. destruct HP as [HP1 _].
    split; [eapply cfg_mono; [|exact HG]; lia|]. split; [|split].
    + cbn. apply prov_put; [eapply prov_mono; [| |split; [exact HP1|exact Hat]]; cbn; lia|].
      repeat (split; [done|]). cbn. lia.
    + unfold unanswered. cbn. apply white_more; [repeat constructor; cbn; lia|]. eapply white_mono; [|exact HW]. lia.
    + cbn. lia.
  - cbn in Ht. pose proof (Hat _ _ H1) as (P1 & P2 & P3 & P4 & P5 & P6 & P7 & P8).
    split; [eapply cfg_mono; [|exact HG]; lia|]. split; [|split].
    + cbn. rewrite N.add_0_r. by apply prov_put.
    + unfold unanswered. cbn. by rewrite N.add_0_r.
    + cbn. lia.
  - cbn in Ht. pose proof (Hat _ _ H0) as (P1 & P2 & P3 & P4 & P5 & P6 & P7 & P8). specialize (Ha eq_refl). cbn in Ha. apply andb_true_iff in Ha as [A1 A2].
    apply N.ltb_lt in A1, A2. destruct Ht as [T1 T2].
    split; [eapply cfg_mono; [|exact HG]; lia|]. split; [|split].
    + cbn. rewrite N.add_0_r. by apply prov_put.
    + unfold unanswered. cbn. by rewrite N.add_0_r.
    + cbn. lia.
  - eapply (small_new R M T (set_cfg (set_c_lstok TPending (w_cfg w)) w) _ [KIssue true caller payment]); try reflexivity; try done; cbn; [lia|]. repeat constructor.
  - eapply (small_new R M T (set_cfg (set_c_usttok TPending (w_cfg w)) w) _ [KIssue false caller payment]); try reflexivity; try done; cbn; [lia|]. repeat constructor.
  - apply small_cfg; [|done]. destruct HG as (G1 & G2 & G3 & G4 & G5 & G6 & G7 & G8 & G9).
    assert (KM : N.of_nat (List.length (c_mgrs (w_cfg w))) <= M + names_managers w (OTx caller 0 [] ep) SOk (set_cfg (f (w_cfg w)) w)) by lia.
    change U64 with (2 ^ 64) in *. change U32 with (2 ^ 32) in *.
    destruct ep as [| | | | | | | | | | | | | | | | | | | | |l|m| | | | |]; try done; try (lazymatch type of H1 with _ /\ _ => destruct H1 as [-> H1] end); try subst f; cbn in Ht.
    all: unfold cfg_small; cbn [c_acc c_rpe c_minr c_unbond c_maxaddr c_score c_migr c_mgrs set_c_active set_c_acc set_c_fees set_c_minr set_c_maxaddr
      set_c_maxsel set_c_unbond set_c_mgrs set_c_migr].
    all: try (split_and!; try done; lia).
    + split_and!; try done; [by apply add_all_forall|]. pose proof (add_all_shorter l (c_mgrs (w_cfg w))). cbn [names_managers]. lia.
    + split_and!; try done; [by apply swap_forall|]. pose proof (swap_shorter m (c_mgrs (w_cfg w))). lia.
    + split_and!; try done. by intros x [= <-].
  - apply small_cfg; [|done]. destruct HG as (G1 & G2 & G3 & G4 & G5 & G6 & G7 & G8 & G9). specialize (Ha eq_refl).
    repeat (split; [done|]). split; [|repeat (split; [done|]); cbn; lia].
    intros s0 [= <-]. cbn in Ha. repeat (let K := fresh "K" in apply andb_true_iff in Ha as [Ha K]).
    repeat match goal with K : (_ <? _) = true |- _ => apply N.ltb_lt in K end. change U64 with (2 ^ 64) in *.
    by repeat constructor.
  - apply (small_keep R M T w); try reflexivity; try exact HS; cbn; lia.
  - apply (small_keep R M T w); try reflexivity; try exact HS; cbn; lia.
  - apply (small_keep R M T w); try reflexivity; try exact HS; cbn; lia.
  - assert (Small R M T w1 /\ w_calls w1 = w_calls w /\ w_res w1 = w_res w) as ((HG1 & HP1 & HW1 & HT1) & E1 & E2).
    { unfold exec_call in H0. destruct out as [v|]; [|by injection H0 as <- <-].
      destruct k; try (by injection H0 as <- <-); destruct (live_of w c) as [x u]; try (by injection H0 as <- <-);
        destruct (_ <=? _); try done; by injection H0 as <- <-. }
    cbn [receives names_managers]. rewrite !N.add_0_r. split; [done|]. split; [done|]. split; [|cbn; lia].
    cbn. unfold unanswered. cbn. rewrite E1, E2. eapply white_perm; [symmetry; by apply unans_exec|].
    unfold unanswered in HW1. by rewrite E1, E2 in HW1.
  - (* failed callback *) apply (small_reply R M T w _ i k r); try done; try (cbn; lia). eapply prov_mono; [| |exact HP]; cbn; lia.
  - pose proof (Hat _ _ H1) as (P1 & P2 & P3 & P4 & P5 & P6 & P7 & P8). eapply (small_reply R M T w _ i); try done; try (cbn; lia).
    cbn. apply prov_put; [eapply prov_mono; [| |exact HP]; cbn; lia|]. repeat (split; [done|]). cbn. lia.
  - pose proof (Hat _ _ H1) as (P1 & P2 & P3 & P4 & P5 & P6 & P7 & P8). eapply (small_reply R M T w _ i); try done; try (cbn; lia).
    cbn. apply prov_put; [eapply prov_mono; [| |exact HP]; cbn; lia|]. repeat (split; [done|]). cbn. lia.
  - pose proof (Hat _ _ H1) as (P1 & P2 & P3 & P4 & P5 & P6 & P7 & P8). eapply (small_reply R M T w _ i); try done; try (cbn; lia).
    cbn. apply prov_put; [eapply prov_mono; [| |exact HP]; cbn; lia|]. repeat (split; [done|]). cbn. lia.
  - pose proof (Hat _ _ H1) as (P1 & P2 & P3 & P4 & P5 & P6 & P7 & P8). cbn [receives]. rewrite H. destruct r; [|done]. cbn [comes_with carries].
    eapply (small_reply R M T w _ i); try done; try (cbn; lia).
    cbn. apply prov_put; [eapply prov_mono; [| |exact HP]; cbn; lia|]. repeat (split; [done|]). cbn. lia.
  - eapply (small_reply R M T w _ i); try done; try (cbn; lia). eapply prov_mono; [| |exact HP]; cbn; lia.
  - pose proof (Hat _ _ H2) as (P1 & P2 & P3 & P4 & P5 & P6 & P7 & P8). eapply (small_reply R M T w _ i); try done; try (cbn; lia).
    cbn. apply prov_put; [eapply prov_mono; [| |exact HP]; cbn; lia|]. repeat (split; [done|]). cbn. lia.
  - eapply (small_reply R M T w _ i); try done; try (cbn; lia). eapply prov_mono; [| |exact HP]; cbn; lia.
  - cbn [receives]. rewrite H. cbn [comes_with]. eapply (small_reply R M T w _ i); try done; try (cbn; lia). eapply prov_mono; [| |exact HP]; cbn; lia.
  - pose proof (Hat _ _ H2) as (P1 & P2 & P3 & P4 & P5 & P6 & P7 & P8).
    destruct (white_less _ _ _ _ _ _ H HW) as [Hw _]. cbn in Hw.
    assert (fresh_rec p) as (F1 & F2 & F3 & F4).
    { destruct HL as [_ _ _ _ Hf _ _]. pose proof (res_unanswered _ _ _ _ H) as Hu. rewrite list.Forall_forall in Hf. apply Hf in Hu.
      destruct Hu as [_ (q & Hq & Hfr)]. congruence. }
    eapply (small_reply R M T w _ i); try done; try (cbn; lia).
    cbn. apply prov_put; [eapply prov_mono; [| |exact HP]; cbn; lia|]. repeat (split; [done|]). cbn. lia.
  - eapply (small_reply R M T w _ i); try done; try (cbn; lia). destruct HP as [HP1 _]. split; [cbn; lia|].
    intros x p. cbn. intros [Hn Hp]%lookup_delete_Some. apply Hat in Hp as (P1 & P2 & P3 & P4 & P5 & P6 & P7 & P8). repeat (split; [done|]). cbn. lia.
  - apply (small_reply R M T (set_cfg (issue_cfg ls true (w_cfg w)) w) _ i (KIssue ls who a) r); try done; try (cbn; lia).
    + eapply prov_mono; [| |exact HP]; cbn; lia.
    + by destruct ls.
  - apply (small_reply R M T (set_cfg (issue_cfg ls false (w_cfg w)) w) _ i (KIssue ls who a) r); try done; try (cbn; lia).
    + eapply prov_mono; [| |exact HP]; cbn; lia.
    + by destruct ls.
  - apply (small_keep R M T w); try reflexivity; try exact HS; cbn; lia.
  - apply (small_keep R M T w); try reflexivity; try exact HS; cbn; lia.
  - apply (small_keep R M T w); try reflexivity; try exact HS; cbn; lia.
  - apply (small_keep R M T w); try reflexivity; try exact HS; cbn; lia.
  - apply (small_keep R M T w); try reflexivity; try exact HS; cbn; lia.
  - apply (small_keep R M T w); try reflexivity; try exact HS; cbn; lia.
  - eapply (small_reply R M T w _ i); try done; try (cbn; lia). eapply prov_mono; [| |exact HP]; cbn; lia.
Qed.

Lemma small_step R M T w o : Reachable w -> typed o -> Small R M T w ->
  let s := snd (step w o) in let w' := fst (step w o) in
  Small (R + receives w o s w') (M + names_managers w o s w') (T + 1) w'.
Proof.
  intros Hr Ht HS. pose proof (small_did R M T (set_log [] w) o _ _ (lists w Hr) (step_did w o) Ht) as K.
  apply K; [|exact HS]. exact (args_fit w o).
Qed.

Lemma small_run os : forall R M T w, Reachable w -> Forall typed os -> Small R M T w ->
  R + tally receives w os < 2 ^ 256 -> M + tally names_managers w os < 2 ^ 32 -> T + N.of_nat (List.length os) < 2 ^ 64 ->
  along (fun v _ => fits v) w os /\ fits (run w os).
Proof.
  induction os as [|o os IH]; intros R M T w Hr Ht HS HR HM HT.
  - cbn [tally] in *. split; [done|]. eapply small_fits; try done; lia.
  - cbn [tally] in *. apply list.Forall_cons in Ht as [Ho Ht].
    pose proof (small_step R M T w o Hr Ho HS) as HS'. cbv zeta in HS'.
    destruct (IH _ _ _ _ (reach_step w o Hr) Ht HS') as [H1 H2]; [lia|lia|cbn [List.length] in HT; lia|].
    split; [|exact H2]. split; [|exact H1]. eapply small_fits; try done; lia.
Qed.

Lemma keeps_up_typed w os : Deployed w -> c_acc (w_cfg w) < 2 ^ 256 -> Forall typed os ->
  tally receives w os < 2 ^ 256 -> tally names_managers w os < 2 ^ 32 -> N.of_nat (List.length os) < 2 ^ 64 ->
  tally insertions w os < 2 ^ 32 ->
  exists ms s, each do_call ms (fun _ => []) = Some s /\ keeps_up s w os.
Proof.
  intros Hd Hacc Ht HR HM HT HI. pose proof (deployed_reach w Hd) as Hr.
  assert (Small 0 0 0 w) as HS.
  { destruct Hd as (owner & acc & fees & rpe & minr & maxsel & maxaddr & unbond & epoch & Hd).
    unfold deploy in Hd. apply rbind_ok in Hd as [[] [E Hd]]. apply rbind_ok in Hd as [g [Eg Hd]]. rstep Hd.
    unfold init in Eg. apply rbind_ok in Eg as [[] [_ Eg]]. apply rbind_ok in Eg as [[] [_ Eg]]. rstep Eg.
    rstep E. repeat (let K := fresh "K" in apply andb_true_iff in E as [E K]).
    repeat match goal with K : (_ <? _) = true |- _ => apply N.ltb_lt in K end.
    change U64 with (2 ^ 64) in *. change U32 with (2 ^ 32) in *. cbn in Hacc.
    split; [|split; [|split]].
    - unfold cfg_small; cbn. split_and!; try done; constructor.
    - split; [done|]. intros c p. cbn. by rewrite lookup_empty.
    - constructor.
    - done. }
  destruct (small_run os 0 0 0 w Hr Ht HS) as [H1 H2]; [lia..|]. by apply keeps_up_deployed.
Qed.
