(** L_Track.v — the storage keeps up with the model (C113). *)
From Verif Require Export L_Calls.
From Verif Require Import L_Lists L_Frame L_Ust L_Books.
From Coq Require Import String.
Open Scope N_scope.

(** The bytes of the single entries. *)
Definition top_token (t : tokst) : bytes :=
  match t with TNotSet => [] | TPending => text "pending" | TIssued => text "XLSEGLD-123456" end.
Definition image (w : world) (e : item) : bytes :=
  let g := w_cfg w in let k := w_pool w in
  match e with
  | IRecord c => match w_pv w !! c with Some p => put_prov p | None => [] end
  | IScoring => match c_score g with Some s => put_scoring s | None => [] end
  | IFees => top_num (c_fees g) | IAccumulator => top_addr (c_acc g)
  | IRoundsPerEpoch => top_num (c_rpe g) | IMinimumRounds => top_num (c_minr g)
  | IState => top_state (c_active g) | ILsToken => top_token (c_lstok g)
  | ISupply => top_num (supply k) | IReserve => top_num (reserve k) | IFeesReserve => top_num (fees_res k)
  | IWithdrawn => top_num (withdrawn k) | IUnstakeToken => top_token (c_usttok g)
  | IPending => top_num (pend k) | IPendingUnstake => top_num (pfu k) | IPendingUnbond => top_num (pfb k)
  | INonce e => match w_un w !! e with Some n => top_num n | None => [] end
  | IMaxAddresses => top_num (c_maxaddr g) | IMaxSelected => top_num (c_maxsel g)
  | IUnbondPeriod => top_num (c_unbond g)
  | IMigration => match c_migr g with Some a => top_addr a | None => [] end
  | _ => []
  end.
Definition stored (s : store) (w : world) (n : N) : Prop :=
  fits w
  /\ (forall e, single e = true -> fits_item e -> s (key e) = image w e)
  /\ holds_set DL s (w_dl w) n /\ holds_set UL s (w_ul w) n /\ holds_vec MGR s (c_mgrs (w_cfg w)).

Lemma holds_set_more b s l n m : n <= m -> holds_set b s l n -> holds_set b s l m.
Proof. intros Hn (ps & k & H1 & H2 & H3). exists ps, k. split; [done|]. split; [lia|done]. Qed.
Lemma token_back t : get_token (top_token t) = t.
Proof. by destruct t. Qed.
Lemma opt_some {A} (get : bytes -> option A) l a : get l = Some a -> l <> [] -> get_opt get l = Some (Some a).
Proof. intros H Hn. unfold get_opt. destruct l; [done|]. by rewrite H. Qed.

Lemma stored_reads s w n : UstInv w -> stored s w n -> reads s w.
Proof.
  intros HU ((F1 & F2 & F3 & F4 & F5 & F6 & F7 & F8 & F9 & F10 & F11 & F12 & F13) & He & Hd & Hu & Hm). unfold reads.
  repeat split; try (rewrite He by done; cbn [image]; try apply num_top; try (apply get_int_top; done)).
  - by destruct (c_active (w_cfg w)).
  - by apply get_addr_top.
  - destruct (c_score (w_cfg w)) as [x|] eqn:E; [|done]. apply opt_some; [apply scoring_back; by apply F6|].
    by apply scoring_kept, F6.
  - destruct (c_migr (w_cfg w)) as [x|] eqn:E; [|done]. apply opt_some; [apply get_addr_top; by apply F7|].
    intros Hn. apply (f_equal (@List.length N)) in Hn. unfold top_addr in Hn. by rewrite be_length in Hn.
  - apply token_back.
  - apply token_back.
  - by apply us_items_ok.
  - intros a Ha. by eapply us_contains_ok.
  - by eapply sm_items_ok.
  - by eapply sm_items_ok.
  - by eapply sm_items_ok.
  - by eapply sm_items_ok.
  - intros c Hc. rewrite He by done. cbn [image]. destruct (w_pv w !! c) as [p|] eqn:E; [|done].
    apply F12 in E as [_ Hp]. apply record_kept in Hp as (H1 & H2 & _). by apply opt_some.
  - intros e Hx. rewrite He by done. cbn [image]. destruct (w_un w !! e) as [k|] eqn:E; [|done].
    apply opt_some; [apply get_int_top; by apply F13 in E as [_ ?]|]. rewrite top_num_nil.
    apply (u_map _ _ _ _ _ HU) in E as (Hk & _). lia.
Qed.

(** Writing single entries one after the other. *)
Definition writes (f : item -> bytes) (es : list item) : list mcall := map (fun e => MSet e (f e)) es.
Global Instance node_eq : EqDecision node. Proof. solve_decision. Defined.
Global Instance slot_eq : EqDecision slot. Proof. solve_decision. Defined.
Global Instance item_eq : EqDecision item. Proof. solve_decision. Defined.
Lemma writes_ok f es : forall s, Forall (fun e => single e = true /\ fits_item e) es ->
  exists s', each do_call (writes f es) s = Some s'
    /\ (forall e, fits_item e -> s' (key e) = if decide (e ∈ es) then f e else s (key e)).
Proof.
  induction es as [|x es IH] using rev_ind; intros s Hf.
  - exists s. split; [done|]. intros e He. rewrite decide_False; [done|]. intros F; inversion F.
  - apply Forall_app in Hf as [Hf Hx]. apply list.Forall_cons in Hx as [[Hx1 Hx2] _].
    destruct (IH s Hf) as (s1 & E1 & H1). exists (put (key x) (f x) s1). split.
    + unfold writes in *. rewrite map_app. rewrite (each_app _ _ _ _ _ E1). cbn [map each do_call]. by rewrite Hx1.
    + intros e He. destruct (decide (e = x)) as [->|Hn].
      * rewrite put_same, decide_True; [done|]. apply elem_of_app. right. by apply elem_of_list_singleton.
      * rewrite other_entry by (done || by apply not_eq_sym). rewrite H1 by done.
        destruct (decide (e ∈ es)) as [Hi|Hi].
        -- rewrite decide_True; [done|]. apply elem_of_app. by left.
        -- rewrite decide_False; [done|]. intros [?|F]%elem_of_app; [done|]. by apply elem_of_list_singleton in F.
Qed.

(** Everything that may differ between two states. *)
Definition statics : list item :=
  [IScoring; IFees; IAccumulator; IRoundsPerEpoch; IMinimumRounds; IState; ILsToken; ISupply; IReserve; IFeesReserve;
   IWithdrawn; IUnstakeToken; IPending; IPendingUnstake; IPendingUnbond; IMaxAddresses; IMaxSelected; IUnbondPeriod; IMigration].
Definition differing (w w' : world) : list item :=
  statics ++ map (fun x => IRecord (fst x)) (map_to_list (w_pv w) ++ map_to_list (w_pv w'))
  ++ map (fun x => INonce (fst x)) (map_to_list (w_un w) ++ map_to_list (w_un w')).
Lemma differing_fits w w' : fits w -> fits w' -> Forall (fun e => single e = true /\ fits_item e) (differing w w').
Proof.
  intros (_ & _ & _ & _ & _ & _ & _ & _ & _ & _ & _ & P1 & U1) (_ & _ & _ & _ & _ & _ & _ & _ & _ & _ & _ & P2 & U2).
  unfold differing. apply Forall_app. split; [repeat constructor|]. apply Forall_app. split.
  - apply list.Forall_forall. intros e ([c p] & -> & Hx)%elem_of_list_fmap. split; [done|]. cbn.
    apply elem_of_app in Hx as [Hx|Hx]; apply elem_of_map_to_list in Hx; [by apply P1 in Hx as [? _]|by apply P2 in Hx as [? _]].
  - apply list.Forall_forall. intros e ([c p] & -> & Hx)%elem_of_list_fmap. split; [done|]. cbn.
    apply elem_of_app in Hx as [Hx|Hx]; apply elem_of_map_to_list in Hx; [by apply U1 in Hx as [? _]|by apply U2 in Hx as [? _]].
Qed.
Lemma differing_all w w' e : single e = true -> e ∉ differing w w' -> image w e = image w' e.
Proof.
  intros Hs Hn. unfold differing in Hn. rewrite !not_elem_of_app in Hn. destruct Hn as (N1 & N2 & N3).
  destruct e; try done; try solve [exfalso; apply N1; unfold statics; repeat (first [apply elem_of_list_here|apply elem_of_list_further])].
  - cbn [image]. assert (forall v, w_pv v = w_pv w \/ w_pv v = w_pv w' -> w_pv v !! c = None) as K.
    { intros v Hv. destruct (w_pv v !! c) as [p|] eqn:E; [|done]. exfalso. apply N2, elem_of_list_fmap.
      exists (c, p). split; [done|]. apply elem_of_app. destruct Hv as [Hv|Hv]; rewrite Hv in E; [left|right]; by apply elem_of_map_to_list. }
    rewrite (K w) by (by left). rewrite (K w') by (by right). done.
  - cbn [image]. assert (forall v, w_un v = w_un w \/ w_un v = w_un w' -> w_un v !! epoch = None) as K.
    { intros v Hv. destruct (w_un v !! epoch) as [p|] eqn:E; [|done]. exfalso. apply N3, elem_of_list_fmap.
      exists (epoch, p). split; [done|]. apply elem_of_app. destruct Hv as [Hv|Hv]; rewrite Hv in E; [left|right]; by apply elem_of_map_to_list. }
    rewrite (K w) by (by left). rewrite (K w') by (by right). done.
Qed.

Lemma each_map {A B} (f : B -> store -> option store) (g : A -> B) xs s :
  each f (map g xs) s = each (fun x => f (g x)) xs s.
Proof. revert s; induction xs as [|x xs IH]; intros s; [done|]. cbn. destruct (f (g x) s); [apply IH|done]. Qed.

(** One action: what the model does to the lists are calls of the mappers. *)
Definition list_calls (w w' : world) (xs ys zs : list change) (k : N) : Prop :=
  w_dl w' = fold_left set_change xs (w_dl w) /\ w_ul w' = fold_left set_change ys (w_ul w)
  /\ c_mgrs (w_cfg w') = fold_left vec_change zs (c_mgrs (w_cfg w))
  /\ Forall (fun x => subject x < 2 ^ 256) xs /\ Forall (fun x => subject x < 2 ^ 256) ys /\ Forall (fun x => subject x < 2 ^ 256) zs
  /\ small (c_mgrs (w_cfg w)) zs /\ inserts xs <= k /\ inserts ys <= k.

Lemma stored_step s w n w' k xs ys zs : stored s w n -> fits w' -> list_calls w w' xs ys zs k -> n + k < 2 ^ 32 ->
  exists ms s', each do_call ms s = Some s' /\ stored s' w' (n + k).
Proof.
  intros (F & He & Hd & Hu & Hm) F' (E1 & E2 & E3 & G1 & G2 & G3 & Hs & I1 & I2) Hk.
  destruct (writes_ok (image w') (differing w w') s (differing_fits w w' F F')) as (s1 & C1 & K1).
  assert (L1 : forall e, single e = false -> fits_item e -> s1 (key e) = s (key e)).
  { intros e Hse Hfe. rewrite K1 by done. rewrite decide_False; [done|]. intros Hi.
    pose proof (proj1 (list.Forall_forall _ _) (differing_fits w w' F F') _ Hi) as [? _]. congruence. }
  assert (Hd1 : holds_set DL s1 (w_dl w) n).
  { revert Hd. apply holds_set_frame. intros x Hx. by apply (L1 (IDelegationList x)). }
  assert (Hu1 : holds_set UL s1 (w_ul w) n).
  { revert Hu. apply holds_set_frame. intros x Hx. by apply (L1 (IUnDelegationList x)). }
  assert (Hm1 : holds_vec MGR s1 (c_mgrs (w_cfg w))).
  { revert Hm. apply holds_vec_frame. intros x Hx. by apply (L1 (IManagers x)). }
  destruct (set_calls_ok DL xs s1 (w_dl w) n Hd1 ltac:(lia) G1) as (s2 & C2 & Hd2 & U2).
  assert (T2 : forall e, fits_item e -> (forall x, e <> IDelegationList x) -> s2 (key e) = s1 (key e)).
  { intros e Hfe Hne. apply U2. intros x Hx Ek. apply (Hne x). by apply keys_differ. }
  assert (Hu2 : holds_set UL s2 (w_ul w) n).
  { revert Hu1. apply holds_set_frame. intros x Hx. by apply (T2 (IUnDelegationList x)). }
  assert (Hm2 : holds_vec MGR s2 (c_mgrs (w_cfg w))).
  { revert Hm1. apply holds_vec_frame. intros x Hx. by apply (T2 (IManagers x)). }
  destruct (set_calls_ok UL ys s2 (w_ul w) n Hu2 ltac:(lia) G2) as (s3 & C3 & Hu3 & U3).
  assert (T3 : forall e, fits_item e -> (forall x, e <> IUnDelegationList x) -> s3 (key e) = s2 (key e)).
  { intros e Hfe Hne. apply U3. intros x Hx Ek. apply (Hne x). by apply keys_differ. }
  assert (Hd3 : holds_set DL s3 (fold_left set_change xs (w_dl w)) (n + inserts xs)).
  { revert Hd2. apply holds_set_frame. intros x Hx. by apply (T3 (IDelegationList x)). }
  assert (Hm3 : holds_vec MGR s3 (c_mgrs (w_cfg w))).
  { revert Hm2. apply holds_vec_frame. intros x Hx. by apply (T3 (IManagers x)). }
  destruct (vec_calls_ok MGR zs s3 (c_mgrs (w_cfg w)) Hm3 Hs G3) as (s4 & C4 & Hm4 & U4).
  assert (T4 : forall e, fits_item e -> (forall x, e <> IManagers x) -> s4 (key e) = s3 (key e)).
  { intros e Hfe Hne. apply U4. intros x Hx Ek. apply (Hne x). by apply keys_differ. }
  exists (writes (image w') (differing w w') ++ map MDl xs ++ map MUl ys ++ map MMgr zs), s4.
  split.
  { rewrite (each_app _ _ _ _ _ C1). rewrite (each_app _ _ _ s1 s2) by (rewrite each_map; exact C2).
    rewrite (each_app _ _ _ s2 s3) by (rewrite each_map; exact C3). rewrite each_map. exact C4. }
  split; [done|]. split.
  { intros e Hse Hfe. rewrite T4, T3, T2 by (done || by intros x ->). rewrite K1 by done.
    destruct (decide (e ∈ differing w w')) as [Hi|Hi]; [done|]. rewrite He by done. by apply differing_all. }
  split.
  { rewrite E1. apply (holds_set_more _ _ _ (n + inserts xs)); [lia|]. revert Hd3. apply holds_set_frame.
    intros x Hx. by apply (T4 (IDelegationList x)). }
  split.
  { rewrite E2. apply (holds_set_more _ _ _ (n + inserts ys)); [lia|]. revert Hu3. apply holds_set_frame.
    intros x Hx. by apply (T4 (IUnDelegationList x)). }
  by rewrite E3.
Qed.

(** What each action does to the lists. *)
Lemma no_lists w w' k : w_dl w' = w_dl w -> w_ul w' = w_ul w -> c_mgrs (w_cfg w') = c_mgrs (w_cfg w) ->
  exists xs ys zs, list_calls w w' xs ys zs k.
Proof.
  intros H1 H2 H3. exists [], [], []. unfold list_calls. cbn [fold_left].
  repeat (split; [done || constructor|]). unfold inserts; cbn. lia.
Qed.
Fixpoint moves (l : list addr) : list change :=
  match l with [] => [] | c :: r => Rem c :: Ins c :: moves r end.
Lemma moves_ok ds : forall l, fold_left set_change (moves (map d_addr ds)) l = L_Inv2.to_back ds l.
Proof. induction ds as [|d ds IH]; intros l; [done|]. cbn [map moves fold_left set_change L_Inv2.to_back]. by rewrite IH. Qed.
Lemma moves_inserts l : inserts (moves l) = N.of_nat (List.length l).
Proof. unfold inserts. induction l as [|c l IH]; [done|]. cbn [moves List.filter List.length]. lia. Qed.
Lemma moves_fit l : Forall (fun a => a < 2 ^ 256) l -> Forall (fun x => subject x < 2 ^ 256) (moves l).
Proof. induction 1; cbn [moves]; repeat constructor; done. Qed.
Lemma add_all_app l : forall s a, a ∈ s -> a ∈ add_all l s.
Proof. induction l as [|c l IH]; intros s a H; cbn [add_all]; [done|]. apply IH, set_insert_in. by right. Qed.
Lemma add_all_in l : forall s a, a ∈ l -> a ∈ add_all l s.
Proof.
  induction l as [|c l IH]; intros s a H; [inversion H|]. cbn [add_all]. apply elem_of_cons in H as [->|H].
  - apply add_all_app, set_insert_in. by left.
  - by apply IH.
Qed.
Lemma add_all_length l : forall s, (List.length s <= List.length (add_all l s))%nat.
Proof.
  induction l as [|c l IH]; intros s; cbn [add_all]; [done|]. etransitivity; [|apply IH].
  destruct (decide (c ∈ s)); [by rewrite insert_in|rewrite insert_out by done; rewrite app_length; lia].
Qed.
Lemma add_all_calls l : forall s, fold_left vec_change (map Ins l) s = add_all l s.
Proof. induction l as [|c l IH]; intros s; [done|]. cbn [map fold_left vec_change add_all]. apply IH. Qed.
Lemma add_all_small l : forall s, N.of_nat (List.length (add_all l s)) < 2 ^ 32 -> small s (map Ins l).
Proof.
  induction l as [|c l IH]; intros s H; [done|]. cbn [map small vec_change add_all] in *. split; [|by apply IH].
  pose proof (add_all_length l (set_insert c s)). lia.
Qed.

Lemma filter_count {A} (f : A -> bool) l r : Forall (fun x => f x = true) l ->
  (List.length l <= List.length (List.filter f (r ++ l)))%nat.
Proof.
  intros H. rewrite filter_app, app_length. assert (List.filter f l = l) as ->; [|lia].
  induction H as [|x l Hx _ IH]; [done|]. cbn. by rewrite Hx, IH.
Qed.
Lemma filter_more {A} (f : A -> bool) l r : (List.length (List.filter f l) <= List.length (List.filter f (l ++ r)))%nat.
Proof. rewrite filter_app, app_length. lia. Qed.
Lemma batch_count ds w c e o s : N.of_nat (List.length ds) <= insertions w o s (commit c (emit e (L_Inv2.deleg_batch_world ds w))).
Proof.
  unfold insertions. cbn. pose proof (filter_more batch_call (w_log w ++ map (fun d => XCall (L_Inv2.kdeleg d)) ds) [e]).
  pose proof (filter_count batch_call (map (fun d => XCall (L_Inv2.kdeleg d)) ds) (w_log w)) as K. rewrite map_length in K.
  assert (Forall (fun x => batch_call x = true) (map (fun d => XCall (L_Inv2.kdeleg d)) ds)) by (apply list.Forall_forall; by intros x (d & -> & _)%elem_of_list_fmap).
  specialize (K H0). lia.
Qed.
Lemma batch_count_un ds w c e o s : N.of_nat (List.length ds) <= insertions w o s (commit c (emit e (L_Inv2.undel_batch_world ds w))).
Proof.
  unfold insertions. cbn. pose proof (filter_more batch_call (w_log w ++ map (fun d => XCall (L_Inv2.kundel d)) ds) [e]).
  pose proof (filter_count batch_call (map (fun d => XCall (L_Inv2.kundel d)) ds) (w_log w)) as K. rewrite map_length in K.
  assert (Forall (fun x => batch_call x = true) (map (fun d => XCall (L_Inv2.kundel d)) ds)) by (apply list.Forall_forall; by intros x (d & -> & _)%elem_of_list_fmap).
  specialize (K H0). lia.
Qed.
Lemma lists_did w o w' s : did w o w' s -> fits w -> fits w' -> exists xs ys zs, list_calls w w' xs ys zs (insertions w o s w').
Proof.
  intros Hd F F'.
  destruct Hd; try (apply no_lists; reflexivity).
  - pose proof (frame_did _ _ StakeList _ _ (d_undelegate w caller x w3 H H0 H1 H2 H3 H4 H5 H6 H7 H8 H9) eq_refl) as K1.
    pose proof (frame_did _ _ UnstakeList _ _ (d_undelegate w caller x w3 H H0 H1 H2 H3 H4 H5 H6 H7 H8 H9) eq_refl) as K2.
    pose proof (frame_did _ _ SManagers _ _ (d_undelegate w caller x w3 H H0 H1 H2 H3 H4 H5 H6 H7 H8 H9) eq_refl) as K3.
    by apply no_lists.
  - exists (moves (map d_addr ds)), [], []. unfold list_calls. cbn [fold_left].
    split; [by rewrite moves_ok|]. split; [done|]. split; [done|].
    split. { apply moves_fit. destruct F as (_ & _ & _ & _ & _ & _ & _ & _ & _ & F & _).
      apply list.Forall_forall. intros y Hy. rewrite list.Forall_forall in F. apply F.
      eapply elem_of_submseteq; [exact Hy|]. by apply sublist_submseteq. }
    repeat (split; [constructor|]). rewrite moves_inserts, map_length. cbn [inserts List.filter List.length N.of_nat].
    split; [apply batch_count|apply N.le_0_l].
  - exists [], (moves (map d_addr ds)), []. unfold list_calls. cbn [fold_left].
    split; [done|]. split; [by rewrite moves_ok|]. split; [done|]. split; [constructor|].
    split. { apply moves_fit. destruct F as (_ & _ & _ & _ & _ & _ & _ & _ & _ & _ & F & _).
      apply list.Forall_forall. intros y Hy. rewrite list.Forall_forall in F. apply F.
      eapply elem_of_submseteq; [exact Hy|]. by apply sublist_submseteq. }
    repeat (split; [constructor|]). rewrite moves_inserts, map_length. cbn [inserts List.filter List.length N.of_nat].
    split; [apply N.le_0_l|apply batch_count_un].
  - destruct ep as [| | | | | | | | | | | | | | | | | | | | |l|m| | | | |]; try done; try (lazymatch type of H1 with _ /\ _ => destruct H1 as [-> _] end); try subst f; try (apply no_lists; reflexivity).
    + exists [], [], (map Ins l). unfold list_calls. cbn [fold_left].
      assert (c_mgrs (w_cfg (set_cfg (set_c_mgrs (add_all l (c_mgrs (w_cfg w))) (w_cfg w)) w)) = add_all l (c_mgrs (w_cfg w))) as E by done.
      destruct F' as (_ & _ & _ & _ & _ & _ & _ & F8 & F9 & _). rewrite E in F8, F9.
      split; [done|]. split; [done|]. split; [by rewrite add_all_calls|]. split; [constructor|]. split; [constructor|].
      split. { apply list.Forall_forall. intros y (a & -> & Ha)%elem_of_list_fmap. cbn [subject].
        rewrite list.Forall_forall in F8. apply F8. by apply add_all_in. }
      split; [by apply add_all_small|]. split; apply N.le_0_l.
    + destruct (decide (m ∈ c_mgrs (w_cfg w))) as [Hi|Hi].
      * exists [], [], [Rem m]. unfold list_calls. cbn [fold_left].
        destruct F as (_ & _ & _ & _ & _ & _ & _ & F8 & F9 & _).
        split; [done|]. split; [done|]. split; [done|]. split; [constructor|]. split; [constructor|].
        split. { constructor; [|constructor]. cbn. rewrite list.Forall_forall in F8. by apply F8. }
        split. { cbn [small]. split; [|done]. pose proof (vec_length (c_mgrs (w_cfg w)) (Rem m)) as Hv. cbn [vec_change] in *. rewrite Nat.add_0_r in Hv. lia. }
        split; apply N.le_0_l.
      * apply no_lists; [done..|]. cbn. by apply swap_remove_out.
  - pose proof (frame_did _ _ StakeList _ _ (d_exec w i k r out w1 H H0) eq_refl) as K1.
    pose proof (frame_did _ _ UnstakeList _ _ (d_exec w i k r out w1 H H0) eq_refl) as K2.
    pose proof (frame_did _ _ SManagers _ _ (d_exec w i k r out w1 H H0) eq_refl) as K3.
    by apply no_lists.
  - exists [Ins c], [Ins c], []. unfold list_calls. cbn [fold_left].
    split; [done|]. split; [done|]. split; [done|].
    assert (c < 2 ^ 256). { destruct F' as (_ & _ & _ & _ & _ & _ & _ & _ & _ & G10 & _). rewrite list.Forall_forall in G10.
      apply G10. cbn. apply set_insert_in. by left. }
    repeat (split; [repeat constructor; done|]). unfold insertions. rewrite H. destruct r; [done|]. unfold inserts; cbn [List.filter List.length]. lia.
  - apply no_lists; [done..|]. by destruct ls.
  - apply no_lists; [done..|]. by destruct ls.
Qed.

Lemma lists_step w o : fits w -> fits (fst (step w o)) ->
  exists xs ys zs, list_calls w (fst (step w o)) xs ys zs (insertions w o (snd (step w o)) (fst (step w o))).
Proof. intros F F'. exact (lists_did (set_log [] w) o _ _ (step_did w o) F F'). Qed.

Lemma keeps_up_from os : forall s w n, Reachable w -> stored s w n ->
  along (fun v _ => fits v) w os -> fits (run w os) -> n + tally insertions w os < 2 ^ 32 -> keeps_up s w os.
Proof.
  induction os as [|o os IH]; intros s w n Hr Hs Ha Hf Hn.
  - split; [|done]. by eapply stored_reads; [apply ust|].
  - split; [by eapply stored_reads; [apply ust|]|]. cbn [along] in Ha. destruct Ha as [F Ha].
    cbn [tally] in Hn. change (run w (o :: os)) with (run (fst (step w o)) os) in Hf.
    assert (F' : fits (fst (step w o))) by (destruct os; [exact Hf|exact (proj1 Ha)]).
    destruct (lists_step w o F F') as (xs & ys & zs & HL).
    destruct (stored_step s w n _ _ xs ys zs Hs F' HL ltac:(lia)) as (ms & s' & E & Hs').
    exists ms, s'. split; [done|]. eapply IH; [by apply reach_step|exact Hs'|done..|lia].
Qed.

(** From deployment on. *)
Definition blank : world := World (Cfg false 0 0 0 0 0 0 0 None None [] TNotSet TNotSet) (Pool 0 0 0 0 0 0 0) [] [] ∅ ∅ 0 ∅ ∅ ∅ 0 0 0 [] [] ∅ [].
Lemma keeps_up_deployed w os : Deployed w -> along (fun v _ => fits v) w os -> fits (run w os) ->
  tally insertions w os < 2 ^ 32 ->
  exists ms s, each do_call ms (fun _ => []) = Some s /\ keeps_up s w os.
Proof.
  intros Hd Ha Hf Hn. assert (F : fits w) by (destruct os; [exact Hf|exact (proj1 Ha)]).
  pose proof (deployed_reach w Hd) as Hr.
  assert (w_dl w = [] /\ w_ul w = [] /\ c_mgrs (w_cfg w) = [] /\ w_pv w = ∅ /\ w_un w = ∅) as (E1 & E2 & E3 & E4 & E5).
  { destruct Hd as (owner & acc & fees & rpe & minr & maxsel & maxaddr & unbond & epoch & Hd).
    unfold deploy in Hd. apply rbind_ok in Hd as [[] [E Hd]]. apply rbind_ok in Hd as [g [Eg Hd]]. rstep Hd.
    unfold init in Eg. apply rbind_ok in Eg as [[] [_ Eg]]. apply rbind_ok in Eg as [[] [_ Eg]]. rstep Eg. done. }
  destruct (writes_ok (image w) statics (fun _ => [])) as (s & C & K); [repeat constructor|].
  exists (writes (image w) statics), s. split; [done|]. eapply (keeps_up_from os s w 0); [done| |done..|lia].
  split; [done|]. rewrite E1, E2, E3.
  assert (L : forall e, single e = false -> fits_item e -> s (key e) = []).
  { intros e Hse Hfe. rewrite K by done. rewrite decide_False; [done|]. intros Hi.
    assert (Forall (fun e => single e = true) statics) as Hx by (repeat constructor).
    rewrite list.Forall_forall in Hx. apply Hx in Hi. congruence. }
  split.
  { intros e Hse Hfe. rewrite K by done. destruct (decide (e ∈ statics)) as [Hi|Hi]; [done|].
    destruct e; try done; try solve [exfalso; apply Hi; unfold statics; repeat (first [apply elem_of_list_here|apply elem_of_list_further])];
      cbn [image]; by rewrite ?E4, ?E5, lookup_empty. }
  split; [apply holds_set_start; intros x Hx; by apply (L (IDelegationList x))|].
  split; [apply holds_set_start; intros x Hx; by apply (L (IUnDelegationList x))|].
  apply holds_vec_start; intros x Hx; by apply (L (IManagers x)).
Qed.

(** Deciding [fits], for the case. *)
Definition lt_b (n : N) (k : N) : bool := k <? n.
Definition fits_test (w : world) : bool :=
  let g := w_cfg w in
  (c_acc g <? 2 ^ 256) && (c_rpe g <? 2 ^ 64) && (c_minr g <? 2 ^ 64) && (c_unbond g <? 2 ^ 64) && (c_maxaddr g <? 2 ^ 32)
  && match c_score g with
     | Some s => forallb (lt_b (2 ^ 64)) [k_min_nodes s; k_max_nodes s; k_min_apy s; k_max_apy s; k_stake_w s; k_apy_w s; k_nodes_w s;
                   k_max_score s; k_exp s; k_apy_mul s]
     | None => true
     end
  && match c_migr g with Some a => a <? 2 ^ 256 | None => true end
  && forallb (lt_b (2 ^ 256)) (c_mgrs g) && (N.of_nat (List.length (c_mgrs g)) <? 2 ^ 32)
  && forallb (lt_b (2 ^ 256)) (w_dl w) && forallb (lt_b (2 ^ 256)) (w_ul w)
  && forallb (fun x => (fst x <? 2 ^ 256) && (p_admin (snd x) <? 2 ^ 256) && (p_nodes (snd x) <? 2 ^ 64) && (p_apy (snd x) <? 2 ^ 64)
        && forallb (fun k => N.of_nat (width k) <? 2 ^ 32)
             [p_total (snd x); p_cap (snd x); p_staked (snd x); p_unstaked (snd x); p_pst (snd x); p_pun (snd x)]) (map_to_list (w_pv w))
  && forallb (fun x => (fst x <? 2 ^ 64) && (snd x <? 2 ^ 64)) (map_to_list (w_un w)).
Lemma forallb_lt n l : forallb (lt_b n) l = true -> Forall (fun k => k < n) l.
Proof. intros H. apply list.Forall_forall. intros x Hx. apply N.ltb_lt. by apply (proj1 (forallb_forall _ _) H), elem_of_list_In. Qed.
Lemma fits_by_test w : fits_test w = true -> fits w.
Proof.
  unfold fits_test. intros H.
  repeat (let K := fresh "K" in apply andb_true_iff in H as [H K]).
  unfold fits. cbn zeta.
  repeat match goal with K : (_ <? _) = true |- _ => apply N.ltb_lt in K end.
  repeat match goal with K : forallb (lt_b _) _ = true |- _ => apply forallb_lt in K end.
  repeat (split; [assumption|]).
  split. { intros s Es. rewrite Es in *. match goal with K : forallb (lt_b (2 ^ 64)) _ = true |- _ => by apply forallb_lt in K end. }
  split. { intros s Es. rewrite Es in *. by match goal with K : (_ <? 2 ^ 256) = true |- _ => apply N.ltb_lt in K end. }
  repeat (split; [assumption|]).
  split.
  - intros c p Hp. apply elem_of_map_to_list, elem_of_list_In in Hp.
    match goal with K : forallb _ (map_to_list (w_pv w)) = true |- _ =>
      pose proof (proj1 (forallb_forall _ _) K _ Hp) as Hx end. cbn [fst snd] in Hx.
    repeat (let K := fresh "K" in apply andb_true_iff in Hx as [Hx K]).
    split; [by apply N.ltb_lt|]. split; [by apply N.ltb_lt|]. split; [by apply N.ltb_lt|]. split; [by apply N.ltb_lt|].
    match goal with K : forallb _ [_; _; _; _; _; _] = true |- _ => rename K into KK end.
    apply list.Forall_forall. intros x Hi. apply elem_of_list_In in Hi.
    apply N.ltb_lt. exact (proj1 (forallb_forall _ _) KK _ Hi).
  - intros c p Hp. apply elem_of_map_to_list, elem_of_list_In in Hp.
    match goal with K : forallb _ (map_to_list (w_un w)) = true |- _ =>
      pose proof (proj1 (forallb_forall _ _) K _ Hp) as Hx end. cbn [fst snd] in Hx.
    apply andb_true_iff in Hx as [Hx KK2]. split; by apply N.ltb_lt.
Qed.
Fixpoint along_test (w : world) (os : list op) : bool :=
  fits_test w && match os with [] => true | o :: r => along_test (fst (step w o)) r end.
Lemma along_by_test os : forall w, along_test w os = true -> along (fun v _ => fits v) w os /\ fits (run w os).
Proof.
  induction os as [|o os IH]; intros w H; cbn [along_test] in H; apply andb_true_iff in H as [H K].
  - split; [done|]. by apply fits_by_test.
  - apply IH in K as [K1 K2]. split; [|done]. split; [by apply fits_by_test|done].
Qed.
