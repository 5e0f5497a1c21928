(** L_Lists.v — provider lists, records, calls in flight, token registration. *)
From Verif Require Export L_Ust.

(** * Unanswered calls *)
Lemma unans_exec i k r w :
  nth_error (w_calls w) i = Some k ->
  Permutation (drop_nth i (w_calls w) ++ map fst (w_res w ++ [(k, r)])) (unanswered w).
Proof.
  intros H. unfold unanswered. rewrite map_app. cbn.
  rewrite (drop_nth_perm _ _ _ H) at 2. cbn. rewrite app_assoc, <- Permutation_cons_append. done.
Qed.

Lemma unans_cb i k r w :
  nth_error (w_res w) i = Some (k, r) ->
  Permutation (unanswered w) (k :: w_calls w ++ map fst (drop_nth i (w_res w))).
Proof.
  intros H. unfold unanswered.
  rewrite (Permutation_map fst (drop_nth_perm _ _ _ H)). cbn. by rewrite Permutation_middle.
Qed.

Lemma unans_new ks w :
  Permutation ((w_calls w ++ ks) ++ map fst (w_res w)) (ks ++ unanswered w).
Proof. unfold unanswered. rewrite !app_assoc. apply Permutation_app_tail, Permutation_app_comm. Qed.

(** * Provider lists *)
Definition is_white (c : N) (k : call) : N := match k with KWhite c' _ _ => if c' =? c then 1 else 0 | _ => 0 end.
Definition is_issue (b : bool) (k : call) : N := match k with KIssue b' _ _ => if Bool.eqb b' b then 1 else 0 | _ => 0 end.

Definition fresh_rec (p : prov) : Prop := p_staked p = 0 /\ p_unstaked p = 0 /\ p_pst p = 0 /\ p_pun p = 0.

Definition fly_ok (dl : list N) (pv : gmap N prov) (k : call) : Prop :=
  match k with
  | KDeleg c _ | KUndel c _ => c ∈ dl
  | KWhite c _ _ => c ∉ dl /\ exists p, pv !! c = Some p /\ fresh_rec p
  | _ => True
  end.

Record ListsAt (dl ul : list N) (pv : gmap N prov) (ks : list call) : Prop := {
  l_dl : NoDup dl;
  l_ul : NoDup ul;
  l_same : forall c, c ∈ dl <-> c ∈ ul;
  l_rec : forall c, c ∈ dl -> is_Some (pv !! c);
  l_fly : Forall (fly_ok dl pv) ks;
  l_white : forall c, sumN (map (is_white c) ks) <= 1;
  l_unlisted : forall c p, pv !! c = Some p -> c ∉ dl -> fresh_rec p;
}.
Definition Lists (w : world) : Prop := ListsAt (w_dl w) (w_ul w) (w_pv w) (unanswered w).

(** membership in lists after moves *)
Lemma existsb_in c l : existsb (N.eqb c) l = true <-> c ∈ l.
Proof.
  rewrite existsb_exists. split.
  - intros (x & Hx & E). apply N.eqb_eq in E as ->. by apply elem_of_list_In.
  - intros H. exists c. split; [by apply elem_of_list_In|apply N.eqb_refl].
Qed.

Lemma set_insert_in c x l : x ∈ set_insert c l <-> x = c \/ x ∈ l.
Proof.
  unfold set_insert. destruct (existsb (N.eqb c) l) eqn:E.
  - apply existsb_in in E. split; [auto|]. intros [->|]; auto.
  - rewrite elem_of_app, elem_of_list_singleton. tauto.
Qed.

Lemma set_insert_nodup c l : NoDup l -> NoDup (set_insert c l).
Proof.
  intros H. unfold set_insert. destruct (existsb (N.eqb c) l) eqn:E; [done|].
  apply NoDup_app. split_and!; [done| |apply NoDup_singleton].
  intros x Hx Hx'. apply elem_of_list_singleton in Hx' as ->. apply existsb_in in Hx. congruence.
Qed.

Lemma set_remove_in c x l : x ∈ set_remove c l <-> x <> c /\ x ∈ l.
Proof.
  unfold set_remove. rewrite !elem_of_list_In, List.filter_In. destruct (N.eqb_spec c x); cbn; intuition congruence.
Qed.

Lemma set_remove_nodup c l : NoDup l -> NoDup (set_remove c l).
Proof.
  unfold set_remove. rewrite !NoDup_ListNoDup. apply List.NoDup_filter.
Qed.

Lemma move_to_back_in c x l : c ∈ l -> x ∈ move_to_back c l <-> x ∈ l.
Proof.
  intros Hc. unfold move_to_back. rewrite set_insert_in, set_remove_in.
  destruct (decide (x = c)) as [->|]; tauto.
Qed.

Lemma to_back_in ds x l : Forall (fun d => d_addr d ∈ l) ds -> x ∈ to_back ds l <-> x ∈ l.
Proof.
  revert l. induction ds as [|d r IH]; intros l HF; [done|].
  change (to_back (d :: r) l) with (to_back r (move_to_back (d_addr d) l)). inversion HF; subst.
  rewrite IH, move_to_back_in; try done.
  eapply Forall_impl; [|eassumption]. cbn. intros y Hy. by apply move_to_back_in.
Qed.

Lemma to_back_nodup ds l : NoDup l -> NoDup (to_back ds l).
Proof.
  revert l. induction ds as [|d r IH]; intros l H; [done|].
  change (to_back (d :: r) l) with (to_back r (move_to_back (d_addr d) l)). apply IH.
  apply set_insert_nodup, set_remove_nodup, H.
Qed.

Lemma sublist_addrs (ds : list dsel) l :
  map d_addr ds `sublist_of` l -> Forall (fun d => d_addr d ∈ l) ds.
Proof.
  intros H. apply List.Forall_forall. intros d Hd.
  eapply elem_of_submseteq; [|apply sublist_submseteq, H]. apply elem_of_list_In, in_map, Hd.
Qed.

Lemma lists_perm dl ul pv ks ks' :
  Permutation ks ks' -> ListsAt dl ul pv ks -> ListsAt dl ul pv ks'.
Proof.
  intros Hp [H1 H2 H3 H4 H5 H6 H7]. split; try done.
  - by rewrite <- Hp.
  - intros c. rewrite <- (sumN_perm _ _ (Permutation_map (is_white c) Hp)). apply H6.
Qed.

Lemma lists_cons dl ul pv k ks :
  ListsAt dl ul pv (k :: ks) <->
  ListsAt dl ul pv ks /\ fly_ok dl pv k /\ (forall c, is_white c k + sumN (map (is_white c) ks) <= 1).
Proof.
  split.
  - intros [H1 H2 H3 H4 H5 H6 H7]. inversion H5; subst. split_and!; try done.
    split; try done. intros c. specialize (H6 c). cbn in H6. lia.
  - intros ([H1 H2 H3 H4 H5 H6 H7] & Hf & Hw). split; try done. by constructor.
Qed.

Lemma lists_plain dl ul pv ks ks' :
  Forall (fun k => fly_ok dl pv k /\ (forall c, is_white c k = 0)) ks' ->
  ListsAt dl ul pv ks -> ListsAt dl ul pv (ks' ++ ks).
Proof.
  intros HF H. induction HF as [|k r [Hk Hw] _ IH]; [done|]. cbn. apply lists_cons. split_and!; try done.
  intros c. rewrite Hw. apply (l_white _ _ _ _ IH).
Qed.

(** a record of a listed provider changes *)
Lemma lists_upd dl ul pv pv' ks :
  (forall c, is_Some (pv !! c) -> is_Some (pv' !! c)) ->
  (forall c p, c ∉ dl -> pv !! c = Some p -> fresh_rec p -> exists p', pv' !! c = Some p' /\ fresh_rec p') ->
  (forall c p', c ∉ dl -> pv' !! c = Some p' -> exists p, pv !! c = Some p) ->
  ListsAt dl ul pv ks -> ListsAt dl ul pv' ks.
Proof.
  intros Hd Hf Hb [H1 H2 H3 H4 H5 H6 H7]. split; try done.
  - intros c Hc. by apply Hd, H4.
  - eapply Forall_impl; [|exact H5]. intros [] Hk; cbn in *; try done.
    destruct Hk as [Hn (p & Hp & Hfr)]. split; [done|]. eapply Hf; eauto.
  - intros c p' Hp' Hc. destruct (Hb c p' Hc Hp') as [p Hp]. destruct (Hf c p Hc Hp (H7 _ _ Hp Hc)) as (p2 & E & Hfr).
    rewrite Hp' in E. injection E as <-. done.
Qed.

Lemma lists_upd1 dl ul pv ks c p p' :
  pv !! c = Some p -> (c ∈ dl \/ (fresh_rec p -> fresh_rec p')) ->
  ListsAt dl ul pv ks -> ListsAt dl ul (<[c := p']> pv) ks.
Proof.
  intros Hp Hor. apply lists_upd.
  - intros x Hx. destruct (decide (c = x)) as [<-|Hn]; [rewrite lookup_insert; by eexists|by rewrite lookup_insert_ne].
  - intros x q Hx Hq Hf. destruct (decide (c = x)) as [<-|Hn]; [|rewrite lookup_insert_ne by done; eauto].
    rewrite lookup_insert. exists p'. split; [done|]. destruct Hor as [?|Hor]; [done|].
    rewrite Hp in Hq. injection Hq as <-. auto.
  - intros x q Hx. destruct (decide (c = x)) as [<-|Hn]; [eauto|rewrite lookup_insert_ne by done; eauto].
Qed.

Lemma lists_deploy owner acc fees rpe minr maxsel maxaddr unbond epoch w :
  deploy owner acc fees rpe minr maxsel maxaddr unbond epoch = Ok w -> Lists w.
Proof.
  unfold deploy. intros H. apply rbind_ok in H as [[] [E H]]. apply rbind_ok in H as [g [E1 H]]. rstep H.
  split; cbn; try constructor; try done.
  intros c. by rewrite !elem_of_nil.
Qed.

(** a reply is taken *)
Lemma lists_take i k r w :
  nth_error (w_res w) i = Some (k, r) -> Lists w ->
  ListsAt (w_dl w) (w_ul w) (w_pv w) (w_calls w ++ map fst (drop_nth i (w_res w)))
  /\ fly_ok (w_dl w) (w_pv w) k
  /\ (forall c, is_white c k + sumN (map (is_white c) (w_calls w ++ map fst (drop_nth i (w_res w)))) <= 1).
Proof. intros H HL. apply (lists_perm _ _ _ _ _ (unans_cb _ _ _ _ H)) in HL. by apply lists_cons. Qed.

Lemma no_white c ks dl pv :
  sumN (map (is_white c) ks) = 0 -> Forall (fly_ok dl pv) ks ->
  Forall (fun k => fly_ok dl pv k /\ match k with KWhite c' _ _ => c' <> c | _ => True end) ks.
Proof.
  intros Hs HF. induction HF as [|k r Hk _ IH]; [constructor|]. cbn in Hs.
  constructor; [|apply IH; lia]. split; [done|]. destruct k; try done. cbn in Hs.
  destruct (N.eqb_spec c0 c); [lia|done].
Qed.

Lemma batch_listed ds w :
  map d_addr ds `sublist_of` w_dl w -> Forall (fun d => d_addr d ∈ w_dl w) ds.
Proof. apply sublist_addrs. Qed.

Lemma lists_did w o w' s : Lists w -> did w o w' s -> Lists w'.
Proof.
  intros I D. destruct D; try exact I.
  - um_clean. exact I.
  - (* delegate batch *)
    match goal with H : _ `sublist_of` _ |- _ => pose proof (sublist_addrs _ _ H) as Hl end.
    unfold Lists in *. cbn. unfold unanswered; cbn.
    apply (lists_perm _ _ _ (map kdeleg ds ++ unanswered w)); [symmetry; apply unans_new|].
    destruct I as [L1 L2 L3 L4 L5 L6 L7]. apply lists_plain.
    { apply List.Forall_forall. intros k Hk. apply in_map_iff in Hk as (d & <- & Hd). cbn. split; [|done].
      rewrite List.Forall_forall in Hl. apply to_back_in; [|auto]. by apply List.Forall_forall. }
    split; try done.
    + by apply to_back_nodup.
    + intros x1. rewrite to_back_in by done. apply L3.
    + intros x1 Hx1. rewrite to_back_in in Hx1 by done. rewrite add_psts_lookup. apply fmap_is_Some. auto.
    + eapply Forall_impl; [|exact L5]. intros [] Hk; cbn in *; try done; try (by apply to_back_in).
      destruct Hk as [Hn (p & Hp & Hf)]. rewrite to_back_in by done. split; [done|].
      rewrite add_psts_lookup, Hp. cbn. eexists. split; [done|].
      assert (dtos c0 ds = 0) as ->.
      { clear -Hl Hn. unfold dtos. induction Hl as [|d r Hd _ IH]; cbn; [done|].
        unfold dto at 1. destruct (N.eqb_spec (d_addr d) c0) as [<-|]; [done|]. done. }
      rewrite N.add_0_r. unfold fresh_rec in *. by destruct p.
    + intros x1 p Hp Hx1. rewrite to_back_in in Hx1 by done. rewrite add_psts_lookup in Hp.
      destruct (w_pv w !! x1) as [q|] eqn:Eq; [|done]. cbn in Hp. injection Hp as <-.
      assert (dtos x1 ds = 0) as ->.
      { clear -Hl Hx1. unfold dtos. induction Hl as [|d r Hd _ IH]; cbn; [done|].
        unfold dto at 1. destruct (N.eqb_spec (d_addr d) x1) as [<-|]; [done|]. done. }
      rewrite N.add_0_r. specialize (L7 _ _ Eq Hx1). unfold fresh_rec in *. by destruct q.
  - (* un-delegate batch *)
    match goal with H : _ `sublist_of` _ |- _ => pose proof (sublist_addrs _ _ H) as Hl end.
    unfold Lists in *. cbn. unfold unanswered; cbn.
    apply (lists_perm _ _ _ (map kundel ds ++ unanswered w)); [symmetry; apply unans_new|].
    destruct I as [L1 L2 L3 L4 L5 L6 L7].
    assert (Hl' : Forall (fun d => d_addr d ∈ w_dl w) ds).
    { eapply Forall_impl; [|exact Hl]. cbn. intros d Hd. by apply L3. }
    apply lists_plain.
    { apply List.Forall_forall. intros k Hk. apply in_map_iff in Hk as (d & <- & Hd). cbn. split; [|done].
      rewrite List.Forall_forall in Hl'. auto. }
    split; try done.
    + by apply to_back_nodup.
    + intros x1. rewrite to_back_in by done. apply L3.
    + intros x1 Hx1. rewrite add_puns_lookup. apply fmap_is_Some. auto.
    + eapply Forall_impl; [|exact L5]. intros [] Hk; cbn in *; try done.
      destruct Hk as [Hn (p & Hp & Hf)]. split; [done|].
      rewrite add_puns_lookup, Hp. cbn. eexists. split; [done|].
      assert (dtos c0 ds = 0) as ->.
      { clear -Hl' Hn. unfold dtos. induction Hl' as [|d r Hd _ IH]; cbn; [done|].
        unfold dto at 1. destruct (N.eqb_spec (d_addr d) c0) as [<-|]; [done|]. done. }
      rewrite N.add_0_r. unfold fresh_rec in *. by destruct p.
    + intros x1 p Hp Hx1. rewrite add_puns_lookup in Hp.
      destruct (w_pv w !! x1) as [q|] eqn:Eq; [|done]. cbn in Hp. injection Hp as <-.
      assert (dtos x1 ds = 0) as ->.
      { clear -Hl' Hx1. unfold dtos. induction Hl' as [|d r Hd _ IH]; cbn; [done|].
        unfold dto at 1. destruct (N.eqb_spec (d_addr d) x1) as [<-|]; [done|]. done. }
      rewrite N.add_0_r. specialize (L7 _ _ Eq Hx1). unfold fresh_rec in *. by destruct q.
  - (* withdraw pending *)
    unfold Lists in *. cbn. unfold unanswered; cbn.
    apply (lists_perm _ _ _ ([KWithd c] ++ unanswered w)); [symmetry; apply unans_new|].
    apply lists_plain; [|done]. by repeat constructor.
  - unfold Lists in *. cbn. unfold unanswered; cbn.
    apply (lists_perm _ _ _ ([KClaim (w_dl w)] ++ unanswered w)); [symmetry; apply unans_new|].
    apply lists_plain; [|done]. by repeat constructor.
  - (* whitelist *)
    unfold Lists in *. cbn. unfold unanswered; cbn.
    apply (lists_perm _ _ _ ([KWhite c payment caller] ++ unanswered w)); [symmetry; apply unans_new|].
    destruct I as [L1 L2 L3 L4 L5 L6 L7].
    assert (Hn : c ∉ w_dl w) by (intros Hc; apply L4 in Hc as [p Hp]; congruence).
    assert (Hw : sumN (map (is_white c) (unanswered w)) = 0).
    { match goal with H : w_pv w !! c = None |- _ => clear -L5 H end. induction L5 as [|k r Hk _ IH]; cbn; [done|]. rewrite IH.
      destruct k; cbn; try done. destruct (N.eqb_spec c0 c) as [->|]; [|done].
      cbn in Hk. destruct Hk as [_ (p & Hp & _)]. congruence. }
    cbn. apply lists_cons. split_and!.
    + split; try done.
      * intros x1 Hx1. destruct (decide (c = x1)) as [<-|]; [done|]. rewrite lookup_insert_ne by done. auto.
      * apply no_white with (c := c) in L5; [|done].
        eapply Forall_impl; [|exact L5]. intros [] [Hk Hk2]; cbn in *; try done.
        rewrite lookup_insert_ne by done. done.
      * intros x1 p Hp Hx1. destruct (decide (c = x1)) as [<-|].
        -- rewrite lookup_insert in Hp. injection Hp as <-. done.
        -- rewrite lookup_insert_ne in Hp by done. eauto.
    + split; [done|]. rewrite lookup_insert. by eexists.
    + intros x1. cbn. specialize (L6 x1). destruct (N.eqb_spec c x1) as [<-|]; lia.
  - (* change admin *)
    unfold Lists in *. cbn. eapply lists_upd1; [eassumption| |exact I]. right. by destruct p.
  - unfold Lists in *. cbn. eapply lists_upd1; [eassumption| |exact I]. right. by destruct p.
  - unfold Lists in *. cbn. unfold unanswered; cbn.
    apply (lists_perm _ _ _ ([KIssue true caller payment] ++ unanswered w)); [symmetry; apply unans_new|].
    apply lists_plain; [|done]. by repeat constructor.
  - unfold Lists in *. cbn. unfold unanswered; cbn.
    apply (lists_perm _ _ _ ([KIssue false caller payment] ++ unanswered w)); [symmetry; apply unans_new|].
    apply lists_plain; [|done]. by repeat constructor.
  - (* exec *)
    match goal with H : exec_call _ _ _ = _ |- _ => apply exec_call_frame in H as [l ->] end.
    unfold Lists in *. cbn. unfold unanswered; cbn.
    eapply lists_perm; [symmetry; apply unans_exec; eassumption|]. exact I.
  - destruct (lists_take _ _ _ _ ltac:(eassumption) I) as (J & _). exact J.
  - destruct (lists_take _ _ _ _ ltac:(eassumption) I) as (J & Hf & _). cbn in Hf.
    unfold Lists, unanswered; cbn. eapply lists_upd1; [eassumption| |exact J]. by left.
  - destruct (lists_take _ _ _ _ ltac:(eassumption) I) as (J & Hf & _). cbn in Hf.
    unfold Lists, unanswered; cbn. eapply lists_upd1; [eassumption| |exact J]. by left.
  - destruct (lists_take _ _ _ _ ltac:(eassumption) I) as (J & Hf & _). cbn in Hf.
    unfold Lists, unanswered; cbn. eapply lists_upd1; [eassumption| |exact J]. by left.
  - destruct (lists_take _ _ _ _ ltac:(eassumption) I) as (J & Hf & _). cbn in Hf.
    unfold Lists, unanswered; cbn. eapply lists_upd1; [eassumption| |exact J]. by left.
  - destruct (lists_take _ _ _ _ ltac:(eassumption) I) as (J & _). exact J.
  - destruct (lists_take _ _ _ _ ltac:(eassumption) I) as (J & Hf & _). cbn in Hf.
    unfold Lists, unanswered; cbn. eapply lists_upd1; [eassumption| |exact J]. right.
    intros (? & ? & ? & ?). unfold fresh_rec; cbn. split_and!; lia.
  - destruct (lists_take _ _ _ _ ltac:(eassumption) I) as (J & _). exact J.
  - destruct (lists_take _ _ _ _ ltac:(eassumption) I) as (J & _). exact J.
  - (* whitelist callback *)
    destruct (lists_take _ _ _ _ ltac:(eassumption) I) as (J & Hf & Hw). cbn in Hf.
    destruct Hf as [Hn _]. specialize (Hw c). cbn in Hw. rewrite N.eqb_refl in Hw.
    unfold Lists, unanswered; cbn. destruct J as [L1 L2 L3 L4 L5 L6 L7].
    split; try done.
    + by apply set_insert_nodup.
    + by apply set_insert_nodup.
    + intros x. rewrite !set_insert_in, L3. done.
    + intros x. rewrite set_insert_in. destruct (decide (c = x)) as [<-|].
      * rewrite lookup_insert. by eexists.
      * rewrite lookup_insert_ne by done. intros [->|Hx]; [done|auto].
    + apply no_white with (c := c) in L5; [|lia].
      eapply Forall_impl; [|exact L5]. intros [] [Hk Hk2]; cbn in *; try done; try (rewrite set_insert_in; auto).
      rewrite lookup_insert_ne by done. split; [|tauto]. intros [->|]; tauto.
    + intros x q Hq Hx. rewrite set_insert_in in Hx. rewrite lookup_insert_ne in Hq by (intros ->; tauto).
      eapply L7; [exact Hq|]. tauto.
  - (* whitelist failed *)
    destruct (lists_take _ _ _ _ ltac:(eassumption) I) as (J & Hf & Hw). cbn in Hf.
    destruct Hf as [Hn _]. specialize (Hw c). cbn in Hw. rewrite N.eqb_refl in Hw.
    unfold Lists, unanswered; cbn. destruct J as [L1 L2 L3 L4 L5 L6 L7].
    split; try done.
    + intros x Hx. rewrite lookup_delete_ne by (intros ->; done). auto.
    + apply no_white with (c := c) in L5; [|lia].
      eapply Forall_impl; [|exact L5]. intros [] [Hk Hk2]; cbn in *; try done.
      rewrite lookup_delete_ne by done. done.
    + intros x q Hq Hx. destruct (decide (c = x)) as [<-|]; [by rewrite lookup_delete in Hq|].
      rewrite lookup_delete_ne in Hq by done. eauto.
  - destruct (lists_take _ _ _ _ ltac:(eassumption) I) as (J & _). exact J.
  - destruct (lists_take _ _ _ _ ltac:(eassumption) I) as (J & _). exact J.
  - destruct (lists_take _ _ _ _ ltac:(eassumption) I) as (J & _). exact J.
Qed.

Lemma lists w : Reachable w -> Lists w.
Proof.
  apply reach_ind.
  - apply lists_deploy.
  - intros v H. exact H.
  - intros v o v' s _. apply lists_did.
Qed.
