(** L_Order.v — histories with per-provider ordered delivery: no callback aborts
    and the recorded stake follows the real one. *)
From Verif Require Import L_Score.

(** effect of a reply on the recorded (staked, unbonding) pair of [c] *)
Definition eff1 (c : N) (x : call * reply) (s : N * N) : option (N * N) :=
  match x with
  | (KDeleg c' a, RDone _) | (KWhite c' a _, RDone _) => if c' =? c then Some (fst s + a, snd s) else Some s
  | (KUndel c' a, RDone _) =>
      if c' =? c then if a <=? fst s then Some (fst s - a, snd s + a) else None else Some s
  | (KWithd c', RDone v) => if c' =? c then if v <=? snd s then Some (fst s, snd s - v) else None else Some s
  | _ => Some s
  end.
Global Arguments eff1 : simpl never.
Fixpoint replay (c : N) (l : list (call * reply)) (s : N * N) : option (N * N) :=
  match l with [] => Some s | x :: r => match eff1 c x s with Some s' => replay c r s' | None => None end end.

Definition InStep (w : world) : Prop := forall c, replay c (w_res w) (recorded w c) = Some (live_of w c).

Lemma replay_app c l1 l2 s : replay c (l1 ++ l2) s = match replay c l1 s with Some s' => replay c l2 s' | None => None end.
Proof. revert s. induction l1 as [|x l1 IH]; intros s; [done|]. cbn. destruct (eff1 c x s); [apply IH|done]. Qed.

Lemma eff1_other c x s : provider_of (fst x) <> Some c -> eff1 c x s = Some s.
Proof.
  destruct x as [k r]. unfold eff1. cbn. destruct k; cbn; intros H; try done; destruct r; try done; destruct (N.eqb_spec c0 c); congruence.
Qed.

Lemma replay_other c l s : Forall (fun x => provider_of (fst x) <> Some c) l -> replay c l s = Some s.
Proof. induction 1 as [|x l Hx _ IH]; [done|]. cbn. by rewrite eff1_other. Qed.

Lemma split_nth {A} (l : list A) i x : nth_error l i = Some x -> exists l1 l2, l = l1 ++ x :: l2 /\ length l1 = i /\ drop_nth i l = l1 ++ l2.
Proof.
  revert i. induction l as [|y l IH]; intros [|i] H; try done.
  - injection H as ->. by exists [], l.
  - destruct (IH i H) as (l1 & l2 & -> & <- & E). exists (y :: l1), l2. split_and!; [done|done|]. exact (f_equal (cons y) E).
Qed.

(** delivery of the oldest reply of its provider *)
Lemma replay_take w i k r :
  nth_error (w_res w) i = Some (k, r) ->
  (forall j k' r', (j < i)%nat -> nth_error (w_res w) j = Some (k', r') -> provider_of k = None \/ provider_of k' <> provider_of k) ->
  forall c, exists l2, replay c (w_res w) (recorded w c) = match eff1 c (k, r) (recorded w c) with
                        | Some s => if decide (provider_of k = Some c) then replay c l2 s else replay c (drop_nth i (w_res w)) s
                        | None => None end
    /\ (provider_of k = Some c -> forall s, replay c (drop_nth i (w_res w)) s = replay c l2 s).
Proof.
  intros Hn Hord c. destruct (split_nth _ _ _ Hn) as (l1 & l2 & E & Hl & Ed). exists l2.
  destruct (decide (provider_of k = Some c)) as [D|D].
  - assert (HF : Forall (fun x => provider_of (fst x) <> Some c) l1).
    { apply List.Forall_forall. intros [k' r'] Hin. apply In_nth_error in Hin as [j Hj]. cbn.
      assert (j < i)%nat by (rewrite <- Hl; apply nth_error_Some; congruence).
      destruct (Hord j k' r') as [K|K]; [done| |congruence|congruence]. rewrite E, nth_error_app1; [done|]. lia. }
    split.
    + rewrite E, replay_app, (replay_other c l1 _ HF). cbn. done.
    + intros _ s. rewrite Ed, replay_app, (replay_other c l1 _ HF). done.
  - split; [|done]. rewrite (eff1_other c (k, r)) by done. rewrite E at 1. rewrite Ed, !replay_app. destruct (replay c l1 (recorded w c)); [|done].
    cbn. by rewrite (eff1_other c (k, r)).
Qed.

Lemma replay_deliver w i k r w' :
  nth_error (w_res w) i = Some (k, r) ->
  (forall j k' r', (j < i)%nat -> nth_error (w_res w) j = Some (k', r') -> provider_of k = None \/ provider_of k' <> provider_of k) ->
  InStep w -> w_res w' = drop_nth i (w_res w) -> w_live w' = w_live w ->
  (forall c, provider_of k = Some c -> forall s, eff1 c (k, r) (recorded w c) = Some s -> recorded w' c = s) ->
  (forall c, provider_of k <> Some c -> recorded w' c = recorded w c) -> InStep w'.
Proof.
  intros Hn Hord HI Hres Hlive H1 H2 c. destruct (replay_take w i k r Hn Hord c) as (l2 & E & E2).
  rewrite (HI c) in E. unfold live_of. rewrite Hlive, Hres. fold (live_of w c). destruct (eff1 c (k, r) (recorded w c)) as [s|] eqn:Es; [|done].
  destruct (decide (provider_of k = Some c)) as [D|D].
  - rewrite (E2 D). by rewrite (H1 c D s Es).
  - rewrite H2 by done. rewrite eff1_other in Es by done. by injection Es as <-.
Qed.

(** what must be possible for a delivered reply *)
Lemma replay_head w i k r c :
  nth_error (w_res w) i = Some (k, r) ->
  (forall j k' r', (j < i)%nat -> nth_error (w_res w) j = Some (k', r') -> provider_of k = None \/ provider_of k' <> provider_of k) ->
  InStep w -> provider_of k = Some c -> exists s, eff1 c (k, r) (recorded w c) = Some s.
Proof.
  intros Hn Hord HI D. destruct (replay_take w i k r Hn Hord c) as (l2 & E & _). rewrite (HI c) in E.
  destruct (eff1 c (k, r) (recorded w c)) as [s|]; [by exists s|done].
Qed.

Lemma instep_same w w' :
  w_res w' = w_res w -> w_live w' = w_live w -> (forall c, recorded w' c = recorded w c) -> InStep w -> InStep w'.
Proof. intros H1 H2 H3 HI c. unfold live_of. rewrite H1, H2, H3. apply HI. Qed.

Lemma recorded_ins w w' c0 p p' :
  w_pv w' = <[c0 := p']> (w_pv w) -> w_pv w !! c0 = Some p -> p_staked p' = p_staked p -> p_unstaked p' = p_unstaked p ->
  forall c, recorded w' c = recorded w c.
Proof.
  intros E Hp H1 H2 c. unfold recorded. rewrite E. destruct (decide (c = c0)) as [->|D].
  - rewrite lookup_insert, Hp. by rewrite H1, H2.
  - by rewrite lookup_insert_ne by done.
Qed.

Lemma unstaked_le w c p : Reachable w -> w_pv w !! c = Some p -> p_unstaked p <= pfb (w_pool w).
Proof.
  intros Hr Hp. rewrite (f_pfb _ _ _ _ (flow w Hr)). rewrite (gsum_delete _ _ _ _ Hp). lia.
Qed.

(** no callback aborts *)
Lemma orderly_ok w i : Reachable w -> InStep w -> orderly w (OCb i) -> ~ cb_failed (snd (step w (OCb i))).
Proof.
  intros Hr HI Ho. unfold orderly in Ho. destruct (nth_error (w_res w) i) as [[k r]|] eqn:Hn.
  2: { unfold step. cbn. rewrite Hn. cbn. tauto. }
  destruct Ho as [Hord Hk]. assert (Hok : snd (step w (OCb i)) = SOk); [|rewrite Hok; cbn; tauto].
  pose proof (res_unanswered _ _ _ _ Hn) as Hun. destruct k as [c a|c a|c|l|c a u|ls u a].
  - destruct r as [|v]; [by apply (cb_deleg_failed w i c a)|by apply (cb_deleg_ok w i c a v)].
  - destruct r as [|v]; [by apply (cb_undel_failed w i c a)|].
    destruct (cb_undel_ok w i c a v Hr Hn) as (p & Hp & _ & [_ H] & _). apply H.
    destruct (replay_head w i _ _ c Hn Hord HI eq_refl) as [s Hs]. unfold eff1, recorded in Hs. rewrite N.eqb_refl, Hp in Hs. cbn in Hs.
    destruct (a <=? p_staked p) eqn:B; [lia|done].
  - destruct r as [|v]; [by rewrite (cb_withd_empty w i c RFail Hn (or_introl eq_refl))|].
    destruct (decide (v = 0)) as [->|Hv]; [by rewrite (cb_withd_empty w i c (RDone 0) Hn (or_intror eq_refl))|].
    destruct (replay_head w i _ _ c Hn Hord HI eq_refl) as [s Hs]. unfold eff1, recorded in Hs. rewrite N.eqb_refl in Hs.
    destruct (w_pv w !! c) as [p|] eqn:Hp; cbn in Hs; destruct (v <=? _) eqn:B; try done; [|lia].
    pose proof (unstaked_le w c p Hr Hp). pose proof (fly_issued _ _ Hr Hun eq_refl) as HIs.
    cb_step Hn. cbn [callback attached is_done]. unfold withdraw_tokens_callback. destruct (0 <? v) eqn:B1; [|lia].
    unfold cache_new, ls_token_id, upd_prov, get_prov. cbn. rewrite HIs. cbn. rewrite sub_ok by lia. cbn. rewrite Hp. cbn.
    rewrite sub_ok by lia. done.
  - by apply (cb_claim_available w i l r).
  - destruct Hk as [HIs Hm]. destruct r as [|v]; [by apply (cb_white_failed w i c a u)|].
    pose proof (who w Hr) as W. rewrite list.Forall_forall in W. destruct (W _ Hun) as [_ Ha].
    eapply (cb_white_ok w i c a u v); [done|done|]. apply view_egld_value_ok; [done|]. unfold minted.
    unfold virtual_reserve, ls_supply in Hm. destruct (0 <? reserve (w_pool w)) eqn:B; [|pose proof MIN_pos; lia].
    apply N.div_str_pos. lia.
  - cb_step Hn. cbn [callback attached is_done]. unfold issue_callback. destruct r as [|v]; cbn; [|done].
    destruct (0 <? a) eqn:B; [|done]. unfold send_egld, take_egld. cbn. destruct (a <=? w_egld w + a) eqn:B1; [done|lia].
Qed.

Lemma exec_replay k out w r w1 : exec_call k out w = Some (r, w1) ->
  forall c, eff1 c (k, r) (live_of w c) = Some (live_of w1 c).
Proof.
  unfold exec_call. destruct out as [v|]; [|intros [= <- <-] c; by destruct k].
  intros E c. unfold eff1.
  destruct k as [c0 a|c0 a|c0|l|c0 a u|ls u a]; try (injection E as <- <-; done); destruct (live_of w c0) as [x y] eqn:El.
  all: try (destruct (_ <=? _) eqn:B; [|done]); injection E as <- <-; destruct (N.eqb_spec c0 c) as [->|D];
    unfold live_of in *; cbn [w_live set_live];
    rewrite ?lookup_insert, ?lookup_insert_ne by done; cbn; try done; rewrite El; cbn; try done; rewrite B; done.
Qed.

Ltac dlv :=
  match goal with K : nth_error (w_res ?w) ?i = Some _, Ho : orderly ?w (OCb ?i), HI : InStep ?w |- _ =>
    unfold orderly in Ho; rewrite K in Ho; destruct Ho as [Hord _];
    apply (fun w1 => replay_deliver w i _ _ w1 K Hord HI); [reflexivity|reflexivity| |] end.

Lemma rec_other w w' c x p : w_pv w' = <[c := p]> (w_pv w) -> x <> c -> recorded w' x = recorded w x.
Proof. intros E H. unfold recorded. rewrite E. by rewrite lookup_insert_ne. Qed.

Lemma instep_did w o w' s :
  Lists w -> InStep w -> orderly w o -> ~ cb_failed s -> did w o w' s -> InStep w'.
Proof.
  intros L HI Ho Hnf D. destruct D; try exact HI.
  - um_clean. exact HI.
  - apply (instep_same w); [done|done| |exact HI]. intros x. unfold recorded. cbn. rewrite add_psts_lookup.
    by destruct (w_pv w !! x).
  - apply (instep_same w); [done|done| |exact HI]. intros x. unfold recorded. cbn. rewrite add_puns_lookup.
    by destruct (w_pv w !! x).
  - apply (instep_same w); [done|done| |exact HI]. intros x. unfold recorded. cbn.
    destruct (decide (x = c)) as [->|Hx]; [rewrite lookup_insert|by rewrite lookup_insert_ne].
    match goal with K : w_pv w !! c = None |- _ => rewrite K end. done.
  - apply (instep_same w); [done|done| |exact HI]. by eapply recorded_ins.
  - apply (instep_same w); [done|done| |exact HI]. by eapply recorded_ins.
  - (* execution *)
    match goal with K : exec_call _ _ _ = _ |- _ => pose proof (exec_replay _ _ _ _ _ K) as Hx; destruct (exec_call_frame _ _ _ _ _ K) as [lv ->] end.
    intros x. cbn. change (recorded (set_res _ _) x) with (recorded w x). rewrite replay_app, (HI x). cbn. rewrite (Hx x). done.
  - cbn in Hnf. tauto.
  - dlv; intros x Hx.
    + injection Hx as <-. intros s. unfold eff1, recorded; cbn. rewrite N.eqb_refl, lookup_insert.
      match goal with K : w_pv w !! _ = Some _ |- _ => rewrite K end. cbn. destruct r; [done|].
      destruct (_ <=? _); [|done]. by intros [= <-].
    + cbn in Hx. eapply (rec_other w); [cbn; reflexivity|congruence].
  - dlv; intros x Hx.
    + injection Hx as <-. intros s. unfold eff1, recorded; cbn. destruct r; [|done]. rewrite lookup_insert.
      match goal with K : w_pv w !! _ = Some _ |- _ => rewrite K end. by intros [= <-].
    + cbn in Hx. eapply (rec_other w); [cbn; reflexivity|congruence].
  - dlv; intros x Hx.
    + injection Hx as <-. intros s. unfold eff1, recorded; cbn. destruct r; [done|]. rewrite N.eqb_refl, lookup_insert.
      match goal with K : w_pv w !! _ = Some _ |- _ => rewrite K end. by intros [= <-].
    + cbn in Hx. eapply (rec_other w); [cbn; reflexivity|congruence].
  - dlv; intros x Hx.
    + injection Hx as <-. intros s. unfold eff1, recorded; cbn. destruct r; [|done]. rewrite lookup_insert.
      match goal with K : w_pv w !! _ = Some _ |- _ => rewrite K end. by intros [= <-].
    + cbn in Hx. eapply (rec_other w); [cbn; reflexivity|congruence].
  - dlv; intros x Hx; [|done].
    injection Hx as <-. intros s. unfold eff1. destruct r as [|v]; [by intros [= <-]|]. cbn in H0. subst v.
    rewrite N.eqb_refl. destruct (0 <=? _); [|done]. rewrite N.sub_0_r. intros [= <-]. change (recorded (set_res _ w) c) with (recorded w c). by destruct (recorded w c).
  - dlv; intros x Hx.
    + injection Hx as <-. intros s. unfold eff1, recorded; cbn. rewrite N.eqb_refl, lookup_insert.
      match goal with K : w_pv w !! _ = Some _ |- _ => rewrite K end. cbn.
      destruct (_ <=? _); [|done]. by intros [= <-].
    + cbn in Hx. eapply (rec_other w); [cbn; reflexivity|congruence].
  - dlv; intros x Hx; done.
  - dlv; intros x Hx; done.
  - dlv; intros x Hx.
    + injection Hx as <-. intros s. unfold eff1, recorded; cbn. destruct r; [done|]. rewrite N.eqb_refl, lookup_insert.
      match goal with K : w_pv w !! _ = Some _ |- _ => rewrite K end. by intros [= <-].
    + cbn in Hx. eapply (rec_other w); [cbn; reflexivity|congruence].
  - pose proof (l_fly _ _ _ _ L) as F. rewrite list.Forall_forall in F.
    match goal with K : nth_error (w_res w) i = Some _ |- _ => pose proof (F _ (res_unanswered _ _ _ _ K)) as (_ & p & Hp & H01 & H02 & _) end.
    dlv; intros x Hx.
    + injection Hx as <-. intros s. unfold eff1, recorded; cbn. destruct r; [|done]. rewrite lookup_delete, Hp, H01, H02. by intros [= <-].
    + unfold recorded. cbn. cbn in Hx. rewrite lookup_delete_ne by congruence. done.
  - dlv; intros x Hx; done.
  - dlv; intros x Hx; done.
  - destruct Ho.
  - destruct Ho.
Qed.

Lemma replay_sum c l s s' : replay c l s = Some s' ->
  fst s' + sumN (map (undelegated c) l) = fst s + sumN (map (added c) l)
  /\ snd s' + sumN (map (handed_back c) l) = snd s + sumN (map (undelegated c) l).
Proof.
  revert s. induction l as [|[k r] l IH]; intros s H; [injection H as <-; cbn; lia|]. cbn [replay] in H.
  destruct (eff1 c (k, r) s) as [s1|] eqn:E; [|done]. apply IH in H as [H1 H2]. cbn [map sumN].
  unfold eff1 in E. destruct k as [c0 a|c0 a|c0|q|c0 a u|b u a]; destruct r as [|v]; cbn [undelegated added handed_back];
    try destruct (c0 =? c); try (injection E as <-; cbn in *; lia);
    destruct (_ <=? _) eqn:B; try done; injection E as <-; cbn in *; lia.
Qed.

Lemma instep_deploy w : Deployed w -> InStep w.
Proof.
  intros (owner & acc & fees & rpe & minr & maxsel & maxaddr & unbond & epoch & H). unfold deploy in H. rstep H. intros c. done.
Qed.

Lemma orderly_step w o : Reachable w -> InStep w -> orderly w o -> ~ cb_failed (snd (step w o)) /\ InStep (fst (step w o)).
Proof.
  intros Hr HI Ho. assert (Hnf : ~ cb_failed (snd (step w o))).
  { destruct o as [u e ps ep|i out|i|d|f t a|n f t a|a|a|c x u|i]; try (by apply orderly_ok); unfold step; cbn.
    - destruct (exec_tx u e ps ep (set_log [] w)); cbn; tauto.
    - destruct (nth_error (w_calls w) i); [|cbn; tauto]. destruct (exec_call _ _ _) as [[]|]; cbn; tauto.
    - destruct (_ <? _); cbn; tauto.
    - destruct (_ =? _); [cbn; tauto|]. destruct (debit _ _ _); cbn; tauto.
    - destruct (_ =? _); [cbn; tauto|]. destruct (debit _ _ _); cbn; tauto.
    - tauto.
    - tauto.
    - tauto.
    - destruct Ho. }
  split; [done|]. eapply (instep_did (set_log [] w) o); [| | |exact Hnf|apply step_did].
  - exact (lists w Hr).
  - exact HI.
  - exact Ho.
Qed.

Lemma orderly_run w os : Reachable w -> InStep w -> along orderly w os -> clean_history w os /\ InStep (run w os).
Proof.
  revert w. induction os as [|o os IH]; intros w Hr HI Ha; [split; [constructor|done]|]. destruct Ha as [H1 H2].
  destruct (orderly_step w o Hr HI H1) as [K1 K2]. destruct (IH _ (reach_step _ _ Hr) K2 H2) as [K3 K4].
  split; [by constructor|done].
Qed.

Lemma ordered_clean w os : Deployed w -> along orderly w os -> clean_history w os.
Proof.
  intros Hd Ha. pose proof Hd as (o1 & o2 & o3 & o4 & o5 & o6 & o7 & o8 & o9 & H).
  exact (proj1 (orderly_run w os (reach_deploy _ _ _ _ _ _ _ _ _ _ H) (instep_deploy w Hd) Ha)).
Qed.

Lemma ordered_books w os :
  Deployed w -> along orderly w os ->
  let v := run w os in forall c,
  fst (live_of v c) + undelivered undelegated v c = fst (recorded v c) + undelivered added v c
  /\ snd (live_of v c) + undelivered handed_back v c = snd (recorded v c) + undelivered undelegated v c.
Proof.
  intros Hd Ha v c. pose proof Hd as (o1 & o2 & o3 & o4 & o5 & o6 & o7 & o8 & o9 & H).
  destruct (orderly_run w os (reach_deploy _ _ _ _ _ _ _ _ _ _ H) (instep_deploy w Hd) Ha) as [_ HI].
  exact (replay_sum c _ _ _ (HI c)).
Qed.

Lemma ordered_books_settled w os :
  Deployed w -> along orderly w os ->
  let v := run w os in forall c,
  (forall x, In x (w_res v) -> provider_of (fst x) <> Some c) -> recorded v c = live_of v c.
Proof.
  intros Hd Ha v c Hno. pose proof Hd as (o1 & o2 & o3 & o4 & o5 & o6 & o7 & o8 & o9 & H).
  destruct (orderly_run w os (reach_deploy _ _ _ _ _ _ _ _ _ _ H) (instep_deploy w Hd) Ha) as [_ HI].
  specialize (HI c). rewrite replay_other in HI; [by injection HI|]. by apply List.Forall_forall.
Qed.
