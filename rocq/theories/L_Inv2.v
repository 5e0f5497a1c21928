(** L_Inv2.v — inversion lemmas, continued: withdraw, payments, batches. *)
From Verif Require Export L_Inv.

Lemma withdraw_inv caller pays w w' :
  caller <> SELF ->
  withdraw caller pays w = Ok w' ->
  let c := w_pool w in
  let s := N.min (amounts pays) (withdrawn c) in
  let c' := set_withdrawn (withdrawn c - amounts pays) c in
  c_lstok (w_cfg w) = TIssued /\ c_active (w_cfg w) = true /\ c_usttok (w_cfg w) = TIssued
  /\ Forall (matured w) pays
  /\ (pays = [] \/ amounts (removelast pays) < withdrawn c)
  /\ s <= w_egld w
  /\ exists U', wl_post caller pays (withdrawn c) (w_ust w) U'
    /\ w' = commit c' (emit (EvGeneral caller c' (w_epoch w)) (emit (XEgld caller s)
              (set_egld (w_egld w - s)
                (set_log (w_log w ++ back_log caller (given_back pays (withdrawn c))) (set_ust U' w))))).
Proof.
  intros Hc H. unfold withdraw in H.
  apply rbind_ok in H as [c [E H]]. rstep E.
  apply rbind_ok in H as [[] [E1 H]]. rstep E1.
  apply rbind_ok in H as [[] [E2 H]]. rstep E2.
  apply rbind_ok in H as [[[c1 w1] s] [E3 H]].
  apply withdraw_loop_inv in E3 as (HF & -> & -> & Hr & U' & HU & ->); [|done].
  apply rbind_ok in H as [w2 [E4 H]]. unfold send_egld in E4.
  apply rbind_ok in E4 as [w3 [E5 E4]]. rstep E5. rstep E4. rstep H.
  rewrite N.add_0_l in *. cbn in E5. cbn zeta.
  split_and!; try done. exists U'. split; [done|]. done.
Qed.

(** * Payments brought in *)
Definition total_ls (m : gmap N N) : N := gsum (fun _ v => v) m.

Definition paid_post (caller : N) (pays : list pay) (L L' : gmap N N) (U U' : gmap (N * N) N) : Prop :=
  amt_at L' SELF = amt_at L SELF + sumN (map any_ls pays)
  /\ amt_at L' caller + sumN (map any_ls pays) = amt_at L caller
  /\ (forall a, a <> SELF -> a <> caller -> amt_at L' a = amt_at L a)
  /\ total_ls L' = total_ls L
  /\ (forall n, amt_at U' (n, SELF) = amt_at U (n, SELF) + ust_paid n pays)
  /\ (forall n, amt_at U' (n, caller) + ust_paid n pays = amt_at U (n, caller))
  /\ (forall n a, a <> SELF -> a <> caller -> amt_at U' (n, a) = amt_at U (n, a))
  /\ users_ust U' + sumN (map any_ust pays) = users_ust U.

Lemma total_move (m : gmap N N) a b x :
  x <= amt_at m a -> total_ls (credit (<[a := amt_at m a - x]> m) b x) = total_ls m.
Proof.
  intros Hx. unfold credit, total_ls.
  pose proof (gsum_all m a (amt_at m a - x)) as H1.
  pose proof (gsum_all (<[a := amt_at m a - x]> m) b (amt_at (<[a := amt_at m a - x]> m) b + x)) as H2.
  lia.
Qed.

Lemma pay_in_inv caller pays w w' :
  caller <> SELF -> pay_in caller pays w = Ok w' ->
  exists L' U', paid_post caller pays (w_ls w) L' (w_ust w) U' /\ w' = set_ust U' (set_ls L' w).
Proof.
  intros Hc. revert w. induction pays as [|[t a] r IH]; intros w H.
  - cbn in H. injection H as <-. exists (w_ls w), (w_ust w). split; [|by destruct w].
    unfold paid_post, ust_paid; cbn. split_and!; try done; intros; lia.
  - cbn [pay_in y_tok y_amt] in H. apply rbind_ok in H as [w1 [E H]].
    apply IH in H as (L' & U' & (H1 & H2 & H3 & H4 & H5 & H6 & H7 & H8) & ->).
    destruct t as [|n|].
    + rstep E. cbn in *. exists L', U'. split; [|done].
      pose proof (total_move (w_ls w) caller SELF a E0) as HT.
      unfold credit in *.
      unfold paid_post. unfold ust_paid in *. cbn [map sumN]. unfold any_ls at 1 3, ust_in at 1 3, any_ust at 1. cbn.
      rewrite !amt_insert in H1. repeat rewrite amt_insert in H2.
      repeat case_decide; simplify_eq.
      split_and!; try lia; try (intros n; specialize (H5 n); specialize (H6 n); lia); try done.
      intros b Hb1 Hb2. rewrite H3, !amt_insert by done. repeat case_decide; simplify_eq; done.
    + rstep E. cbn in *. exists L', U'. split; [|done].
      unfold credit in *. rewrite (amt_insert (w_ust w)), decide_False in * by congruence.
      unfold paid_post. unfold ust_paid in *. cbn [map sumN]. unfold any_ls at 1 3, ust_in at 1 3, any_ust at 1. cbn.
      split_and!; try lia; try done.
      * intros k. rewrite H5. rewrite !amt_insert.
        destruct (N.eqb_spec n k) as [->|Hk]; repeat case_decide; simplify_eq; lia.
      * intros k. specialize (H6 k). rewrite !amt_insert in H6.
        destruct (N.eqb_spec n k) as [->|Hk]; repeat case_decide; simplify_eq; lia.
      * intros k b Hb1 Hb2. rewrite H7, !amt_insert by done. repeat case_decide; simplify_eq; done.
      * rewrite users_self in H8. pose proof (users_other (w_ust w) n caller (amt_at (w_ust w) (n, caller) - a) Hc). lia.
    + injection E as <-. exists L', U'. split; [|done].
      unfold paid_post in *. unfold ust_paid in *. cbn [map sumN].
      unfold any_ls at 1 3, ust_in at 1 3, any_ust at 1. cbn. split_and!; done.
Qed.

(** * Batches *)
Definition add_pst (d : dsel) (m : gmap N prov) : gmap N prov :=
  match m !! d_addr d with
  | Some p => <[d_addr d := set_p_pst (p_pst p + d_amt d) p]> m
  | None => m
  end.
Definition add_pun (d : dsel) (m : gmap N prov) : gmap N prov :=
  match m !! d_addr d with
  | Some p => <[d_addr d := set_p_pun (p_pun p + d_amt d) p]> m
  | None => m
  end.
Fixpoint add_psts (ds : list dsel) (m : gmap N prov) : gmap N prov :=
  match ds with [] => m | d :: r => add_psts r (add_pst d m) end.
Fixpoint add_puns (ds : list dsel) (m : gmap N prov) : gmap N prov :=
  match ds with [] => m | d :: r => add_puns r (add_pun d m) end.
Fixpoint to_back (ds : list dsel) (l : list N) : list N :=
  match ds with [] => l | d :: r => to_back r (move_to_back (d_addr d) l) end.
Definition damts (ds : list dsel) : N := sumN (map d_amt ds).
(** amount of a batch that goes to [c] *)
Definition dto (c : N) (d : dsel) : N := if d_addr d =? c then d_amt d else 0.
Definition dtos (c : N) (ds : list dsel) : N := sumN (map (dto c) ds).
Definition kdeleg (d : dsel) : call := KDeleg (d_addr d) (d_amt d).
Definition kundel (d : dsel) : call := KUndel (d_addr d) (d_amt d).

Definition deleg_batch_world (ds : list dsel) (w : world) : world :=
  set_log (w_log w ++ map (fun d => XCall (kdeleg d)) ds)
   (set_calls (w_calls w ++ map kdeleg ds)
    (set_egld (w_egld w - damts ds)
     (set_pv (add_psts ds (w_pv w)) (set_dl (to_back ds (w_dl w)) w)))).
Definition undel_batch_world (ds : list dsel) (w : world) : world :=
  set_log (w_log w ++ map (fun d => XCall (kundel d)) ds)
   (set_calls (w_calls w ++ map kundel ds)
     (set_pv (add_puns ds (w_pv w)) (set_ul (to_back ds (w_ul w)) w))).

Lemma add_pst_dom d m c : is_Some (add_pst d m !! c) <-> is_Some (m !! c).
Proof.
  unfold add_pst. destruct (m !! d_addr d) eqn:E; [|done].
  destruct (decide (d_addr d = c)) as [<-|Hn].
  - rewrite lookup_insert, E. split; eauto.
  - by rewrite lookup_insert_ne.
Qed.
Lemma add_pun_dom d m c : is_Some (add_pun d m !! c) <-> is_Some (m !! c).
Proof.
  unfold add_pun. destruct (m !! d_addr d) eqn:E; [|done].
  destruct (decide (d_addr d = c)) as [<-|Hn].
  - rewrite lookup_insert, E. split; eauto.
  - by rewrite lookup_insert_ne.
Qed.

Lemma delegate_batch_inv ds w w' :
  delegate_batch ds w = Ok w' ->
  damts ds <= w_egld w /\ Forall (fun d => is_Some (w_pv w !! d_addr d)) ds
  /\ w' = deleg_batch_world ds w.
Proof.
  revert w. induction ds as [|d r IH]; intros w H.
  - cbn in H. injection H as <-. unfold damts; cbn. split_and!; [lia|done|].
    unfold deleg_batch_world, damts; cbn. rewrite !app_nil_r, N.sub_0_r. by destruct w.
  - cbn [delegate_batch] in H. apply rbind_ok in H as [w1 [E1 H]]. apply rbind_ok in H as [w2 [E2 H]].
    unfold upd_prov in E1. apply rbind_ok in E1 as [p [E3 E1]]. rstep E3. rstep E1. cbn in E3.
    unfold register in E2. apply rbind_ok in E2 as [w3 [E4 E2]]. rstep E4. rstep E2. cbn in E4.
    apply IH in H as (He & Hd & ->). cbn in He, Hd.
    unfold damts in *; cbn [map sumN]. split_and!; [lia| |].
    + constructor; [by eexists|]. eapply Forall_impl; [|exact Hd]. cbn. intros x Hx.
      apply (add_pst_dom d). unfold add_pst. rewrite E3. exact Hx.
    + unfold deleg_batch_world, damts. cbn. unfold add_pst. rewrite E3.
      rewrite <- !app_assoc. cbn. rewrite N.sub_add_distr. done.
Qed.

Lemma undelegate_batch_inv ds w w' :
  undelegate_batch ds w = Ok w' ->
  Forall (fun d => is_Some (w_pv w !! d_addr d)) ds
  /\ w' = undel_batch_world ds w.
Proof.
  revert w. induction ds as [|d r IH]; intros w H.
  - cbn in H. injection H as <-. split_and!; [done|].
    unfold undel_batch_world; cbn. rewrite !app_nil_r. by destruct w.
  - cbn [undelegate_batch] in H. apply rbind_ok in H as [w1 [E1 H]]. apply rbind_ok in H as [w2 [E2 H]].
    unfold upd_prov in E1. apply rbind_ok in E1 as [p [E3 E1]]. rstep E3. rstep E1. cbn in E3.
    unfold register in E2. apply rbind_ok in E2 as [w3 [E4 E2]]. rstep E4. rstep E2. cbn in E4.
    apply IH in H as (Hd & ->). cbn in Hd. split_and!.
    + constructor; [by eexists|]. eapply Forall_impl; [|exact Hd]. cbn. intros x Hx.
      apply (add_pun_dom d). unfold add_pun. rewrite E3. exact Hx.
    + unfold undel_batch_world. cbn. unfold add_pun. rewrite E3.
      rewrite <- !app_assoc. cbn. rewrite N.sub_0_r. done.
Qed.

(** forward direction *)
Lemma delegate_batch_ok ds w :
  damts ds <= w_egld w -> Forall (fun d => is_Some (w_pv w !! d_addr d)) ds ->
  delegate_batch ds w = Ok (deleg_batch_world ds w).
Proof.
  revert w. induction ds as [|d r IH]; intros w He Hd.
  - cbn. unfold deleg_batch_world, damts; cbn. rewrite !app_nil_r, N.sub_0_r. by destruct w.
  - inversion Hd as [|? ? [p Hp] Hr]; subst. unfold damts in He; cbn [map sumN] in He.
    cbn [delegate_batch]. unfold upd_prov, get_prov. cbn. rewrite Hp. cbn.
    unfold register, take_egld. cbn. destruct (d_amt d <=? w_egld w) eqn:B; [|lia]. cbn.
    rewrite IH; cbn; [| unfold damts; lia |].
    + unfold deleg_batch_world, damts. cbn. unfold add_pst. rewrite Hp.
      rewrite <- !app_assoc. cbn. rewrite N.sub_add_distr. done.
    + eapply Forall_impl; [|exact Hr]. cbn. intros x Hx.
      apply (add_pst_dom d) in Hx. unfold add_pst in Hx. rewrite Hp in Hx. exact Hx.
Qed.

Lemma undelegate_batch_ok ds w :
  Forall (fun d => is_Some (w_pv w !! d_addr d)) ds ->
  undelegate_batch ds w = Ok (undel_batch_world ds w).
Proof.
  revert w. induction ds as [|d r IH]; intros w Hd.
  - cbn. unfold undel_batch_world; cbn. rewrite !app_nil_r. by destruct w.
  - inversion Hd as [|? ? [p Hp] Hr]; subst.
    cbn [undelegate_batch]. unfold upd_prov, get_prov. cbn. rewrite Hp. cbn.
    unfold register, take_egld. cbn. destruct (0 <=? w_egld w) eqn:B; [|lia]. cbn.
    rewrite IH; cbn.
    + unfold undel_batch_world. cbn. unfold add_pun. rewrite Hp.
      rewrite <- !app_assoc. cbn. rewrite N.sub_0_r. done.
    + eapply Forall_impl; [|exact Hr]. cbn. intros x Hx.
      apply (add_pun_dom d) in Hx. unfold add_pun in Hx. rewrite Hp in Hx. exact Hx.
Qed.

(** record of a provider after a batch *)
Lemma add_psts_lookup ds m c :
  add_psts ds m !! c = (fun p => set_p_pst (p_pst p + dtos c ds) p) <$> m !! c.
Proof.
  revert m. induction ds as [|d r IH]; intros m; cbn.
  - unfold dtos; cbn. destruct (m !! c) as [p|]; [|done]. cbn. rewrite N.add_0_r. by destruct p.
  - rewrite IH. unfold add_pst, dtos, dto. cbn [map sumN].
    destruct (N.eqb_spec (d_addr d) c) as [<-|Hn].
    + destruct (m !! d_addr d) as [p|] eqn:E; [rewrite lookup_insert|rewrite E]; [|done].
      cbn. unfold set_p_pst; cbn. rewrite <- N.add_assoc. done.
    + destruct (m !! d_addr d) as [p|] eqn:E; [rewrite lookup_insert_ne by done|]; done.
Qed.
Lemma add_puns_lookup ds m c :
  add_puns ds m !! c = (fun p => set_p_pun (p_pun p + dtos c ds) p) <$> m !! c.
Proof.
  revert m. induction ds as [|d r IH]; intros m; cbn.
  - unfold dtos; cbn. destruct (m !! c) as [p|]; [|done]. cbn. rewrite N.add_0_r. by destruct p.
  - rewrite IH. unfold add_pun, dtos, dto. cbn [map sumN].
    destruct (N.eqb_spec (d_addr d) c) as [<-|Hn].
    + destruct (m !! d_addr d) as [p|] eqn:E; [rewrite lookup_insert|rewrite E]; [|done].
      cbn. unfold set_p_pun; cbn. rewrite <- N.add_assoc. done.
    + destruct (m !! d_addr d) as [p|] eqn:E; [rewrite lookup_insert_ne by done|]; done.
Qed.

Lemma gsum_add_psts (f : prov -> N) ds m :
  (forall p a, f (set_p_pst a p) = f p) ->
  gsum (fun _ : N => f) (add_psts ds m) = gsum (fun _ : N => f) m.
Proof.
  intros Hf. revert m. induction ds as [|d r IH]; intros m; cbn; [done|].
  rewrite IH. unfold add_pst. destruct (m !! d_addr d) as [p|] eqn:E; [|done].
  pose proof (gsum_insert (fun _ : N => f) m (d_addr d) (set_p_pst (p_pst p + d_amt d) p)) as H.
  unfold gat in H. rewrite E, Hf in H. lia.
Qed.
Lemma gsum_add_puns (f : prov -> N) ds m :
  (forall p a, f (set_p_pun a p) = f p) ->
  gsum (fun _ : N => f) (add_puns ds m) = gsum (fun _ : N => f) m.
Proof.
  intros Hf. revert m. induction ds as [|d r IH]; intros m; cbn; [done|].
  rewrite IH. unfold add_pun. destruct (m !! d_addr d) as [p|] eqn:E; [|done].
  pose proof (gsum_insert (fun _ : N => f) m (d_addr d) (set_p_pun (p_pun p + d_amt d) p)) as H.
  unfold gat in H. rewrite E, Hf in H. lia.
Qed.
Lemma gsum_pst_add_psts ds m :
  Forall (fun d => is_Some (m !! d_addr d)) ds ->
  gsum (fun _ : N => p_pst) (add_psts ds m) = gsum (fun _ : N => p_pst) m + damts ds.
Proof.
  revert m. induction ds as [|d r IH]; intros m Hd; unfold damts; cbn; [lia|].
  inversion Hd as [|? ? [p Hp] Hr]; subst. rewrite IH.
  - unfold add_pst, damts. rewrite Hp.
    pose proof (gsum_insert (fun _ : N => p_pst) m (d_addr d) (set_p_pst (p_pst p + d_amt d) p)) as H.
    unfold gat in H. rewrite Hp in H. cbn in H. lia.
  - eapply Forall_impl; [|exact Hr]. cbn. intros x Hx. by apply add_pst_dom.
Qed.
Lemma gsum_pun_add_puns ds m :
  Forall (fun d => is_Some (m !! d_addr d)) ds ->
  gsum (fun _ : N => p_pun) (add_puns ds m) = gsum (fun _ : N => p_pun) m + damts ds.
Proof.
  revert m. induction ds as [|d r IH]; intros m Hd; unfold damts; cbn; [lia|].
  inversion Hd as [|? ? [p Hp] Hr]; subst. rewrite IH.
  - unfold add_pun, damts. rewrite Hp.
    pose proof (gsum_insert (fun _ : N => p_pun) m (d_addr d) (set_p_pun (p_pun p + d_amt d) p)) as H.
    unfold gat in H. rewrite Hp in H. cbn in H. lia.
  - eapply Forall_impl; [|exact Hr]. cbn. intros x Hx. by apply add_pun_dom.
Qed.
