(** L_Ust.v — the unstake token book-keeping invariant. *)
From Verif Require Export L_Acct.

Record Ust (un : gmap N N) (at_ : gmap N (N * N)) (last ep : N) (U : gmap (N * N) N) : Prop := {
  u_map : forall u n, un !! u = Some n ->
    1 <= n <= last /\ (exists e, at_ !! n = Some (e, u)) /\ 1 <= amt_at U (n, SELF);
  u_last : 1 <= last -> exists e u, at_ !! last = Some (e, u) /\ un !! u = Some last;
  u_attr : forall n, is_Some (at_ !! n) <-> 1 <= n <= last;
  u_bal : forall n a, 0 < amt_at U (n, a) -> 1 <= n <= last;
  u_epoch : forall n e u, at_ !! n = Some (e, u) -> e <= ep /\ u < U64;
}.
Definition UstInv (w : world) : Prop := Ust (w_un w) (w_attr w) (w_last w) (w_epoch w) (w_ust w).

(** only balances of users or larger balances of the contract: kept *)
Lemma ust_mono un at_ la ep U ep' U' :
  Ust un at_ la ep U -> ep <= ep' ->
  (forall n, amt_at U (n, SELF) <= amt_at U' (n, SELF)) ->
  (forall n a, 0 < amt_at U' (n, a) -> 1 <= n <= la) ->
  Ust un at_ la ep' U'.
Proof.
  intros [H1 H2 H3 H4 H5] He HS HB. split; try done.
  - intros u n Hu. destruct (H1 u n Hu) as (? & ? & ?). specialize (HS n). split_and!; try done; lia.
  - intros n e u Hn. destruct (H5 n e u Hn). split; [lia|done].
Qed.

Lemma U64_pos : 0 < U64. Proof. done. Qed.

Lemma ust_issue_inv caller a u w n w' :
  UstInv w -> caller <> SELF -> u < U64 -> ust_issue caller a u w n w' -> UstInv w'.
Proof.
  unfold UstInv. intros I Hc Hu D. pose proof I as [H1 H2 H3 H4 H5].
  destruct D as [n Hn Hb|Hn Hl|e0 u0 Hn Hl Hb Ha He|e0 u0 Hn Hl Hb Ha He]; cbn; unfold ubal in *.
  - apply (ust_mono _ _ _ (w_epoch w) (w_ust w)); [done|lia| |].
    + intros k. rewrite amt_credit, amt_insert. repeat case_decide; simplify_eq; lia.
    + intros k b. rewrite amt_credit, amt_insert. repeat case_decide; simplify_eq; intros Hp.
      * by apply (H1 u).
      * by apply (H1 u).
      * eapply H4. rewrite N.add_0_r in Hp. exact Hp.
  - assert (Hnone : forall k, w_attr w !! k = None).
    { intros k. destruct (w_attr w !! k) eqn:E; [|done].
      assert (is_Some (w_attr w !! k)) as Hk by (by eexists). apply H3 in Hk. lia. }
    assert (Hun : forall k, w_un w !! k = None).
    { intros k. destruct (w_un w !! k) eqn:E; [|done]. apply H1 in E. lia. }
    assert (Hz : forall k b, amt_at (w_ust w) (k, b) = 0).
    { intros k b. destruct (N.eqb_spec (amt_at (w_ust w) (k, b)) 0) as [E|E]; [done|].
      specialize (H4 k b). lia. }
    split.
    + intros v m Hv. destruct (decide (u = v)) as [->|Hne].
      * rewrite lookup_insert in Hv. injection Hv as <-. split_and!; try lia.
        -- exists (w_epoch w). by rewrite lookup_insert.
        -- rewrite amt_credit, amt_insert. repeat case_decide; simplify_eq; lia.
      * rewrite lookup_insert_ne, Hun in Hv by done. done.
    + intros _. exists (w_epoch w), u. by rewrite !lookup_insert.
    + intros k. destruct (decide (1 = k)) as [<-|Hne].
      * rewrite lookup_insert. split; [lia|eauto].
      * rewrite lookup_insert_ne, Hnone by done. split; [intros [? [=]]|lia].
    + intros k b. rewrite amt_credit, amt_insert, !Hz. repeat case_decide; simplify_eq; lia.
    + intros k e v. destruct (decide (1 = k)) as [<-|Hne].
      * rewrite lookup_insert. intros [= <- <-]. split; [lia|done].
      * rewrite lookup_insert_ne, Hnone by done. done.
  - assert (Hz : forall b, amt_at (w_ust w) (w_last w + 1, b) = 0).
    { intros b. destruct (N.eqb_spec (amt_at (w_ust w) (w_last w + 1, b)) 0) as [E|E]; [done|].
      specialize (H4 (w_last w + 1) b). lia. }
    split.
    + intros v m Hv. destruct (decide (u = v)) as [->|Hne].
      * rewrite lookup_insert in Hv. injection Hv as <-. split_and!; try lia.
        -- exists (w_epoch w). by rewrite lookup_insert.
        -- rewrite amt_credit, amt_insert. repeat case_decide; simplify_eq; lia.
      * rewrite lookup_insert_ne in Hv by done. destruct (H1 v m Hv) as (G1 & [e G2] & G3).
        split_and!; try lia.
        -- exists e. rewrite lookup_insert_ne by lia. done.
        -- rewrite amt_credit, amt_insert. repeat case_decide; simplify_eq; lia.
    + intros _. exists (w_epoch w), u. by rewrite !lookup_insert.
    + intros k. destruct (decide (w_last w + 1 = k)) as [<-|Hne].
      * rewrite lookup_insert. split; [lia|eauto].
      * rewrite lookup_insert_ne, H3 by done. lia.
    + intros k b. rewrite amt_credit, amt_insert. repeat case_decide; simplify_eq; try lia.
      intros Hp. rewrite N.add_0_r in Hp. apply H4 in Hp. lia.
    + intros k e v. destruct (decide (w_last w + 1 = k)) as [<-|Hne].
      * rewrite lookup_insert. intros [= <- <-]. split; [lia|done].
      * rewrite lookup_insert_ne by done. apply H5.
  - assert (Hz : forall b, amt_at (w_ust w) (w_last w + 1, b) = 0).
    { intros b. destruct (N.eqb_spec (amt_at (w_ust w) (w_last w + 1, b)) 0) as [E|E]; [done|].
      specialize (H4 (w_last w + 1) b). lia. }
    destruct (H2 ltac:(lia)) as (e1 & u1 & G1 & G2). rewrite Ha in G1. injection G1 as <- <-.
    assert (u0 <> u) by congruence.
    split.
    + intros v m Hv. destruct (decide (u0 = v)) as [->|Hne0]; [by rewrite lookup_delete in Hv|].
      rewrite lookup_delete_ne in Hv by done. destruct (decide (u = v)) as [->|Hne].
      * rewrite lookup_insert in Hv. injection Hv as <-. split_and!; try lia.
        -- exists (w_epoch w). by rewrite lookup_insert.
        -- rewrite amt_credit, amt_insert. repeat case_decide; simplify_eq; lia.
      * rewrite lookup_insert_ne in Hv by done. destruct (H1 v m Hv) as (K1 & [e K2] & K3).
        assert (m <> w_last w) by (intros ->; congruence).
        split_and!; try lia.
        -- exists e. rewrite lookup_insert_ne by lia. done.
        -- rewrite amt_credit, !amt_insert. repeat case_decide; simplify_eq; lia.
    + intros _. exists (w_epoch w), u. rewrite lookup_insert, lookup_delete_ne, lookup_insert by done. done.
    + intros k. destruct (decide (w_last w + 1 = k)) as [<-|Hne].
      * rewrite lookup_insert. split; [lia|eauto].
      * rewrite lookup_insert_ne, H3 by done. lia.
    + intros k b. rewrite amt_credit, !amt_insert. repeat case_decide; simplify_eq; try lia.
      intros Hp. rewrite N.add_0_r in Hp. apply H4 in Hp. lia.
    + intros k e v. destruct (decide (w_last w + 1 = k)) as [<-|Hne].
      * rewrite lookup_insert. intros [= <- <-]. split; [lia|done].
      * rewrite lookup_insert_ne by done. apply H5.
Qed.

Lemma egld_paid_ust to a w : UstInv w -> UstInv (egld_paid to a w).
Proof. rewrite egld_paid_eq. done. Qed.

Lemma ust_maybe_inv caller r w w' :
  UstInv w -> caller <> SELF -> ust_maybe caller r w w' -> UstInv w'.
Proof.
  intros I Hc D. destruct D as [Hr|n w' Hr Ht D]; [done|].
  refine (ust_issue_inv _ _ _ _ _ _ I Hc _ D).
  unfold add64. apply N.mod_lt. pose proof U64_pos. lia.
Qed.

Lemma matured_pays w n pays :
  Forall (matured w) pays -> 0 < ust_paid n pays -> is_Some (w_attr w !! n).
Proof.
  intros HF. unfold ust_paid. induction HF as [|p l (m & e & u & Ht & _ & Ha & _) _ IH]; cbn; [lia|].
  intros H. unfold ust_in at 1 in H. rewrite Ht in H. destruct (N.eqb_spec m n) as [->|Hn]; [by eexists|].
  apply IH. lia.
Qed.

Lemma back_in_pays w n pays pot :
  Forall (matured w) pays -> 0 < back_of (given_back pays pot) n -> is_Some (w_attr w !! n).
Proof.
  intros HF H. unfold given_back in H. destruct (_ <=? _); [cbn in H; lia|].
  destruct (list.last pays) as [[t a]|] eqn:El; [|cbn in H; lia].
  apply last_Some_elem_of, elem_of_list_In in El.
  rewrite Forall_forall in HF. destruct (HF _ El) as (m & e & u & Ht & _ & Ha & _). cbn in Ht. subst t.
  cbn in H. destruct (N.eqb_spec m n) as [E|E]; [subst; by eexists|lia].
Qed.

Lemma ust_deploy owner acc fees rpe minr maxsel maxaddr unbond epoch w :
  deploy owner acc fees rpe minr maxsel maxaddr unbond epoch = Ok w -> UstInv w.
Proof.
  unfold deploy. intros H. apply rbind_ok in H as [[] [E H]]. apply rbind_ok in H as [g [E1 H]]. rstep H.
  split; cbn.
  - intros u n. by rewrite lookup_empty.
  - lia.
  - intros n. rewrite lookup_empty. split; [intros [? [=]]|lia].
  - intros n a. unfold amt_at. rewrite lookup_empty. cbn. lia.
  - intros n e u. by rewrite lookup_empty.
Qed.

Lemma ust_did w o w' s : UstInv w -> did w o w' s -> UstInv w'.
Proof.
  intros I D. destruct D; try exact I.
  - (* unDelegate *)
    match goal with H : ust_maybe _ _ _ _ |- _ => eapply ust_maybe_inv in H; [exact H| |done] end.
    apply egld_paid_ust. exact I.
  - (* withdraw *)
    match goal with H : wd_post _ _ _ _ _ |- _ => destruct H as (K1 & K2 & K3 & K4) end.
    apply (ust_mono _ _ _ (w_epoch w) (w_ust w)); [exact I|cbn; lia| |].
    + intros n. cbn. rewrite K1. lia.
    + cbn. intros n b Hb. pose proof (u_bal _ _ _ _ _ I n) as HB. pose proof (u_attr _ _ _ _ _ I n) as HA.
      cbn in *. destruct (decide (b = SELF)) as [->|Hs]; [rewrite K1 in Hb; eauto|].
      destruct (decide (b = caller)) as [->|Hs']; [|rewrite K3 in Hb by done; eauto].
      specialize (K2 n). 
      destruct (decide (0 < back_of (given_back pays (withdrawn (w_pool w))) n)) as [Hx|Hx].
      * apply HA. eapply back_in_pays; [done|exact Hx].
      * apply (HB caller). subst c. lia.
  - (* exec *)
    match goal with H : exec_call _ _ _ = _ |- _ => apply exec_call_frame in H as [l ->] end. exact I.
  - (* epoch *) apply (ust_mono _ _ _ (w_epoch w) (w_ust w)); [exact I|cbn; lia|cbn; lia|].
    cbn. apply (u_bal _ _ _ _ _ I).
  - (* move *)
    apply (ust_mono _ _ _ (w_epoch w) (w_ust w)); [exact I|cbn; lia| |]; cbn; unfold ubal in *.
    + intros k. rewrite amt_credit, amt_insert. repeat case_decide; simplify_eq; lia.
    + intros k b. rewrite amt_credit, amt_insert.
      pose proof (u_bal _ _ _ _ _ I k b) as HB. pose proof (u_bal _ _ _ _ _ I n from) as HB'. cbn in HB, HB'.
      repeat case_decide; simplify_eq; lia.
Qed.

Lemma ust w : Reachable w -> UstInv w.
Proof.
  apply reach_ind.
  - apply ust_deploy.
  - intros v H. exact H.
  - intros v o v' s _. apply ust_did.
Qed.
