(** L_Own.v — the unstake tokens the contract itself holds, and its table of nonces. *)
From Verif Require Export Spec16 L_Same L_Exact L_Donate.

Record Own (g : N -> N) (w : world) : Prop := {
  o_in : forall n, in_table n w -> ubal w n SELF = 1 + g n;
  o_out : forall n, ~ in_table n w -> ubal w n SELF <= g n;
  o_old : forall n, 0 < g n -> 1 <= n <= w_last w;
}.

Lemma in_table_dec w n : UstInv w -> in_table n w \/ ~ in_table n w.
Proof.
  intros [H1 H2 H3 H4 H5]. destruct (w_attr w !! n) as [[e u]|] eqn:Ea.
  - destruct (decide (w_un w !! u = Some n)) as [E|E]; [left; by exists u|right]. intros [v Hv].
    destruct (H1 v n Hv) as (_ & [e' He'] & _). rewrite Ea in He'. injection He' as -> ->. done.
  - right. intros [v Hv]. destruct (H1 v n Hv) as (_ & [e' He'] & _). congruence.
Qed.

(** A new nonce; the one before it may be cleaned. *)
Lemma own_new g w w' u :
  UstInv w -> Own g w -> w_un w !! u = None -> w_last w' = w_last w + 1 -> ubal w' (w_last w + 1) SELF = ubal w (w_last w + 1) SELF + 1 ->
  (w_un w' = <[u := w_last w + 1]> (w_un w) /\ forall n, n <> w_last w + 1 -> ubal w' n SELF = ubal w n SELF)
  \/ (exists u0, w_un w !! u0 = Some (w_last w) /\ w_un w' = delete u0 (<[u := w_last w + 1]> (w_un w))
      /\ ubal w' (w_last w) SELF = 0 /\ forall n, n <> w_last w + 1 -> n <> w_last w -> ubal w' n SELF = ubal w n SELF) ->
  Own g w'.
Proof.
  intros I HO Hu Hl Hb Hc. pose proof I as [H1 H2 H3 H4 H5]. destruct HO as [O1 O2 O3].
  assert (Hg : g (w_last w + 1) = 0) by (destruct (N.eq_0_gt_0_cases (g (w_last w + 1))) as [E|E]; [done|apply O3 in E; lia]).
  assert (Hz : ubal w (w_last w + 1) SELF = 0).
  { unfold ubal. destruct (N.eq_0_gt_0_cases (amt_at (w_ust w) (w_last w + 1, SELF))) as [E|E]; [done|]. apply H4 in E. lia. }
  assert (Hin : forall n, n <> w_last w + 1 ->
    (in_table n w' -> in_table n w /\ ubal w' n SELF = ubal w n SELF)
    /\ (~ in_table n w' -> (~ in_table n w /\ ubal w' n SELF = ubal w n SELF) \/ ubal w' n SELF = 0)).
  { intros n Hn. destruct Hc as [[Eu Eb]|(u0 & Eu0 & Eu & Ez & Eb)].
    - unfold in_table. rewrite Eu, Eb by done. split.
      + intros [k Hk]. split; [|done]. exists k. destruct (decide (k = u)) as [->|]; [rewrite lookup_insert in Hk; congruence|].
        by rewrite lookup_insert_ne in Hk.
      + intros K. left. split; [|done]. intros [k Hk]. apply K. exists k. rewrite lookup_insert_ne by congruence. done.
    - destruct (decide (n = w_last w)) as [->|Hn'].
      + split; [|by right]. intros [k Hk]. exfalso. rewrite Eu in Hk. destruct (decide (k = u0)) as [->|]; [by rewrite lookup_delete in Hk|].
        rewrite lookup_delete_ne in Hk by done. destruct (decide (k = u)) as [->|]; [rewrite lookup_insert in Hk; injection Hk; lia|].
        rewrite lookup_insert_ne in Hk by done. destruct (H1 k _ Hk) as (_ & [e1 A1] & _). destruct (H1 u0 _ Eu0) as (_ & [e2 A2] & _).
        congruence.
      + rewrite Eb by done. unfold in_table. rewrite Eu. split.
        * intros [k Hk]. split; [|done]. exists k. destruct (decide (k = u0)) as [->|]; [by rewrite lookup_delete in Hk|].
          rewrite lookup_delete_ne in Hk by done. destruct (decide (k = u)) as [->|]; [rewrite lookup_insert in Hk; congruence|].
          by rewrite lookup_insert_ne in Hk.
        * intros K. left. split; [|done]. intros [k Hk]. apply K. exists k.
          rewrite lookup_delete_ne by congruence. rewrite lookup_insert_ne by congruence. done. }
  assert (Hnew : in_table (w_last w + 1) w').
  { destruct Hc as [[Eu Eb]|(u0 & Eu0 & Eu & Ez & Eb)]; exists u; rewrite Eu; [apply lookup_insert|].
    rewrite lookup_delete_ne by congruence. apply lookup_insert. }
  split.
  - intros n Hn. destruct (decide (n = w_last w + 1)) as [->|Hne]; [lia|].
    destruct (Hin n Hne) as [K _]. destruct (K Hn) as [K1 ->]. by apply O1.
  - intros n Hn. destruct (decide (n = w_last w + 1)) as [->|Hne]; [done|].
    destruct (Hin n Hne) as [_ K]. destruct (K Hn) as [[K1 ->]| ->]; [by apply O2|lia].
  - intros n Hn. apply O3 in Hn. lia.
Qed.

Lemma ust_gift_none n w o s w' : s <> SOk -> ust_gift n w o s w' = 0.
Proof. destruct o; try done. by destruct s. Qed.

Lemma own_same g h w w' :
  Own g w -> (forall n, h n = 0) -> w_un w' = w_un w -> w_last w' = w_last w -> (forall n, ubal w' n SELF = ubal w n SELF) ->
  Own (fun n => g n + h n) w'.
Proof.
  intros [O1 O2 O3] Hh Hu Hl Hb. split; intros n; unfold in_table; rewrite ?Hu, ?Hb, ?Hl, Hh, N.add_0_r; [apply O1|apply O2|apply O3].
Qed.

Lemma own_ext g h w : (forall n, g n = h n) -> Own g w -> Own h w.
Proof. intros E [O1 O2 O3]. split; intros n; rewrite <- E; [apply O1|apply O2|apply O3]. Qed.

(** Reading a balance of the contract after [a] has been given to a user. *)
Lemma self_after (U : gmap (N * N) N) n caller a v m :
  caller <> SELF ->
  amt_at (credit (<[(n, SELF) := v]> U) (n, caller) a) (m, SELF) = if m =? n then v else amt_at U (m, SELF).
Proof.
  intros Hc. unfold credit. rewrite !amt_insert. rewrite decide_False by (intros [= _ E]; done).
  destruct (N.eqb_spec m n) as [->|Hn]; [by rewrite decide_True|]. rewrite decide_False by congruence. done.
Qed.

Lemma own_did w o w' s g :
  UstInv w -> Own g w -> did w o w' s -> Own (fun n => g n + ust_gift n w o s w') w'.
Proof.
  intros I HO D. destruct D; try (apply (own_same g _ w); [exact HO|intros; done|reflexivity|reflexivity|intros; reflexivity]).
  - apply (own_same g _ w); try done. intros n. apply ust_gift_none. by intros ->.
  - match goal with H : ust_maybe _ _ _ _ |- _ => rename H into Hm end.
    destruct Hm as [_|k w2 _ _ D]; [apply (own_same g _ w); try done; by rewrite egld_paid_eq|].
    rewrite egld_paid_eq in D. apply (own_ext g); [intros; cbn [ust_gift]; lia|].
    match goal with H : caller <> SELF |- _ => rename H into Hcs end. clear -I HO D Hcs.
    pose proof I as [H1 H2 H3 H4 H5].
    destruct D as [n Hu Hb|Hu Hl|e0 u0 Hu Hl Hb Ha He|e0 u0 Hu Hl Hb Ha He]; cbn in *.
    + apply (own_ext (fun m => g m + 0)); [intros; lia|]. apply (own_same g (fun _ => 0) w); try done.
      intros m. unfold ubal. cbn. rewrite self_after by done. destruct (N.eqb_spec m n) as [->|]; done.
    + apply (own_new g w _ (add64 (w_epoch w) (c_unbond (w_cfg w)))); try done; cbn; rewrite Hl.
      * done.
      * unfold ubal. cbn. rewrite self_after by done. by rewrite N.eqb_refl.
      * left. split; [done|]. intros n Hn. unfold ubal. cbn. rewrite self_after by done.
        destruct (N.eqb_spec n 1); [lia|done].
    + apply (own_new g w _ (add64 (w_epoch w) (c_unbond (w_cfg w)))); try done; cbn.
      * unfold ubal. cbn. rewrite self_after by done. by rewrite N.eqb_refl.
      * left. split; [done|]. intros n Hn. unfold ubal. cbn. rewrite self_after by done.
        destruct (N.eqb_spec n (w_last w + 1)); [lia|done].
    + apply (own_new g w _ (add64 (w_epoch w) (c_unbond (w_cfg w)))); try done; cbn.
      * unfold ubal. cbn. rewrite self_after by done. by rewrite N.eqb_refl.
      * right. exists u0. destruct H2 as (e' & u' & He' & Hu'); [lia|]. rewrite Ha in He'. injection He' as <- <-.
        split_and!; [done|done| |].
        -- unfold ubal. cbn. rewrite self_after by done. destruct (N.eqb_spec (w_last w) (w_last w + 1)); [lia|].
           by rewrite amt_insert, decide_True.
        -- intros n Hn Hn'. unfold ubal. cbn. rewrite self_after by done. destruct (N.eqb_spec n (w_last w + 1)); [lia|].
           rewrite amt_insert, decide_False by congruence. done.
  - apply (own_same g _ w); try done. intros n. unfold ubal. cbn. match goal with H : wd_post _ _ _ _ _ |- _ => destruct H as [K _]; apply K end.
  - match goal with H : exec_call _ _ _ = _ |- _ => apply exec_call_frame in H as [l ->] end. by apply (own_same g _ w).
  - destruct HO as [O1 O2 O3].
    assert (Hb : forall m, amt_at (credit (<[(n, from) := ubal w n from - a]> (w_ust w)) (n, to) a) (m, SELF)
                 = ubal w m SELF + (if (n =? m) && (to =? SELF) then a else 0)).
    { intros m. unfold ubal, credit. rewrite !amt_insert.
      destruct (decide ((n, to) = (m, SELF))) as [[= -> ->]|Hne].
      - rewrite decide_False by (intros [= ?]; done). by rewrite !N.eqb_refl.
      - rewrite decide_False by (intros [= _ ?]; done).
        destruct (N.eqb_spec n m) as [->|], (N.eqb_spec to SELF) as [->|]; cbn; try lia. done. }
    split; intros m; unfold in_table, ubal; cbn [w_un w_ust set_ust w_last ust_gift]; rewrite ?Hb.
    + intros K. rewrite (O1 m K). lia.
    + intros K. specialize (O2 m K). lia.
    + intros K. destruct (N.eq_0_gt_0_cases (g m)) as [E|E]; [|by apply O3].
      destruct ((n =? m) && (to =? SELF)) eqn:B; [|lia]. apply andb_true_iff in B as [B _]. apply N.eqb_eq in B as ->.
      destruct I as [_ _ _ H4 _]. apply (H4 m from). unfold ubal in *. lia.
Qed.

Lemma own_run w os : Deployed w -> Own (fun n => tally (ust_gift n) w os) (run w os).
Proof.
  intros Hd. pose proof (deployed_reach w Hd) as Hr. induction os as [|o os IH] using rev_ind.
  - destruct (deploy_shape w Hd) as (g & e & ow & ->). split; intros n; cbn; [|done|done].
    intros [k Hk]. cbn in Hk. by rewrite lookup_empty in Hk.
  - rewrite run_snoc. assert (Hr' : Reachable (run w os)) by (by apply reach_run_).
    eapply own_ext; [|apply (own_did (set_log [] (run w os)) o (fst (step (run w os) o)) (snd (step (run w os) o)) (fun n => tally (ust_gift n) w os) (ust _ Hr')); [|apply step_did]].
    + intros n. rewrite tally_snoc. reflexivity.
    + destruct IH as [O1 O2 O3]. split; [exact O1|exact O2|exact O3].
Qed.

Lemma own_units w os n :
  Deployed w -> let v := run w os in
  (in_table n v -> ust_of n SELF v = 1 + tally (ust_gift n) w os)
  /\ (~ in_table n v -> ust_of n SELF v <= tally (ust_gift n) w os).
Proof. intros Hd v. destruct (own_run w os Hd) as [O1 O2 _]. split; [apply O1|apply O2]. Qed.

(** * Which nonces are in the table *)
Definition Tab (w : world) : Prop := forall n s k, w_attr w !! n = Some (s, k) ->
  (w_un w !! k = Some n <-> n = w_last w \/ exists k', w_attr w !! (n + 1) = Some (s, k')).

Lemma tab_new w u un' :
  UstInv w -> Tab w -> w_un w !! u = None ->
  (un' = <[u := w_last w + 1]> (w_un w) /\ (w_last w = 0 \/ exists u0, w_attr w !! w_last w = Some (w_epoch w, u0)))
  \/ (exists e u0, w_attr w !! w_last w = Some (e, u0) /\ e < w_epoch w /\ un' = delete u0 (<[u := w_last w + 1]> (w_un w))) ->
  forall n s k, <[w_last w + 1 := (w_epoch w, u)]> (w_attr w) !! n = Some (s, k) ->
  (un' !! k = Some n <-> n = w_last w + 1 \/ exists k', <[w_last w + 1 := (w_epoch w, u)]> (w_attr w) !! (n + 1) = Some (s, k')).
Proof.
  intros [H1 H2 H3 H4 H5] HT Hu Hc n s k Hn.
  assert (Hlast : forall u0 e, w_attr w !! w_last w = Some (e, u0) -> w_un w !! u0 = Some (w_last w)).
  { intros u0 e He. assert (1 <= w_last w <= w_last w) by (apply H3; by eexists).
    destruct H2 as (e' & u' & He' & Hu'); [lia|]. rewrite He in He'. by injection He' as <- <-. }
  destruct (decide (n = w_last w + 1)) as [->|Hne].
  - rewrite lookup_insert in Hn. injection Hn as <- <-. split; [by left|]. intros _.
    destruct Hc as [[-> _]|(e & u0 & He & _ & ->)]; [apply lookup_insert|].
    rewrite lookup_delete_ne; [apply lookup_insert|]. intros ->. apply Hlast in He. congruence.
  - rewrite lookup_insert_ne in Hn by done.
    assert (Hnl : 1 <= n <= w_last w) by (apply H3; by eexists).
    destruct (decide (n = w_last w)) as [->|Hnl'].
    + rewrite lookup_insert. pose proof (Hlast _ _ Hn) as Hk.
      destruct Hc as [[-> [Hz|[u0 He]]]|(e & u0 & He & Hlt & ->)]; [lia| |].
      * rewrite Hn in He. injection He as -> ->. rewrite lookup_insert_ne by congruence. rewrite Hk.
        split; [intros _; right; by eexists|done].
      * rewrite Hn in He. injection He as <- <-. rewrite lookup_delete. split; [done|]. intros [E|[k' [= E _]]]; lia.
    + rewrite (lookup_insert_ne _ _ (n + 1)) by lia.
      assert (Hk : k = u -> w_un w !! k <> Some n) by (intros -> E; congruence).
      assert (HX : un' !! k = Some n <-> w_un w !! k = Some n).
      { assert (HY : <[u := w_last w + 1]> (w_un w) !! k = Some n <-> w_un w !! k = Some n).
        { destruct (decide (k = u)) as [->|]; [rewrite lookup_insert; split; [intros [= E]; lia|congruence]|].
          by rewrite lookup_insert_ne. }
        destruct Hc as [[-> _]|(e & u0 & He & _ & ->)]; [done|].
        destruct (decide (k = u0)) as [->|]; [|by rewrite lookup_delete_ne].
        rewrite lookup_delete. apply Hlast in He. split; [done|]. intros E. congruence. }
      rewrite HX, (HT n s k Hn). split; intros [E|E]; try lia; by right.
Qed.

Lemma tab_did w o w' s : UstInv w -> Tab w -> did w o w' s -> Tab w'.
Proof.
  intros I S D. destruct D; try exact S.
  - match goal with H : ust_maybe _ _ _ _ |- _ => rename H into Hm end.
    destruct Hm as [_|k w2 _ _ D]; [rewrite egld_paid_eq; exact S|].
    rewrite egld_paid_eq in D. pose proof (u_epoch _ _ _ _ _ I) as HE. unfold Tab in *. destruct D as [n Hu Hb|Hu Hl|e0 u0 Hu Hl Hb Ha He|e0 u0 Hu Hl Hb Ha He]; cbn in *.
    + exact S.
    + pose proof (tab_new w _ _ I S Hu (or_introl (conj eq_refl (or_introl Hl)))) as X. rewrite Hl in X. exact X.
    + refine (tab_new w _ _ I S Hu (or_introl (conj eq_refl (or_intror _)))). exists u0.
      destruct (HE _ _ _ Ha) as [? _]. replace (w_epoch w) with e0 by lia. done.
    + refine (tab_new w _ _ I S Hu (or_intror _)). by exists e0, u0.
  - match goal with H : exec_call _ _ _ = _ |- _ => apply exec_call_frame in H as [l ->] end. exact S.
Qed.

Lemma tab w : Reachable w -> Tab w.
Proof.
  intros Hr. cut (UstInv w /\ Tab w); [by intros [_ ?]|]. revert w Hr. apply reach_ind.
  - intros * H. split; [by eapply ust_deploy|]. unfold deploy in H. apply rbind_ok in H as [[] [E H]].
    apply rbind_ok in H as [g [E1 H]]. rstep H. intros n s k. cbn. by rewrite lookup_empty.
  - intros v [H1 H2]. split; [exact H1|exact H2].
  - intros v o v' s _ [H1 H2] D. split; [by eapply ust_did|by eapply tab_did].
Qed.

Lemma table_rule w n :
  Reachable w ->
  (in_table n w -> 1 <= n <= w_last w)
  /\ (1 <= n <= w_last w -> exists s k, w_attr w !! n = Some (s, k)
      /\ (forall k', w_un w !! k' = Some n -> k' = k)
      /\ (in_table n w <-> n = w_last w \/ exists k', w_attr w !! (n + 1) = Some (s, k'))).
Proof.
  intros Hr. pose proof (ust w Hr) as [H1 H2 H3 H4 H5]. split.
  - intros [k Hk]. by destruct (H1 k n Hk).
  - intros Hn. apply H3 in Hn as [[s k] Ha]. exists s, k. split; [done|].
    assert (Hk : forall k', w_un w !! k' = Some n -> k' = k).
    { intros k' Hk'. destruct (H1 k' n Hk') as (_ & [e He] & _). rewrite Ha in He. by injection He. }
    split; [exact Hk|]. rewrite <- (tab w Hr n s k Ha). split; [|by exists k]. intros [k' Hk']. by rewrite <- (Hk k' Hk').
Qed.

(** An entry that survived the next nonce is never removed, one that is gone never returns. *)
Lemma table_final w os n :
  Reachable w -> 1 <= n -> n < w_last w -> (in_table n (run w os) <-> in_table n w).
Proof.
  intros Hr H1 Hn. assert (Hr' : Reachable (run w os)) by (by apply reach_run_).
  destruct (table_rule w n Hr) as [_ R1]. destruct (table_rule (run w os) n Hr') as [_ R2].
  assert (Hat : forall k, 1 <= k <= w_last w -> exists a, w_attr w !! k = Some a /\ w_attr (run w os) !! k = Some a).
  { intros k Hk. pose proof (ust w Hr) as [_ _ H3 _ _]. apply H3 in Hk as [a Ha]. exists a. split; [done|]. by apply attr_run. }
  assert (Hl : w_last w <= w_last (run w os)).
  { destruct (Hat (w_last w)) as (a & _ & Ha); [lia|]. pose proof (ust _ Hr') as [_ _ H3 _ _].
    assert (1 <= w_last w <= w_last (run w os)) by (apply H3; by exists a). lia. }
  destruct R1 as (s & k & A1 & _ & T1); [lia|]. destruct R2 as (s2 & k2 & A2 & _ & T2); [lia|].
  destruct (Hat n) as (a & B1 & B2); [lia|]. destruct (Hat (n + 1)) as (b & C1 & C2); [lia|].
  rewrite A1 in B1. rewrite A2 in B2. rewrite <- B2 in B1. injection B1 as -> ->.
  rewrite T1, T2, C1, C2. split; intros [E|E]; try lia; by right.
Qed.
