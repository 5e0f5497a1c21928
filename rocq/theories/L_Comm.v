(** L_Comm.v — replies of providers commute. *)
From Verif Require Export Spec5 L_Reply.

Lemma nth_drop_lt {A} (l : list A) i j : (i < j)%nat -> nth_error (drop_nth j l) i = nth_error l i.
Proof. revert i j. induction l as [|a l IH]; intros [|i] [|j] H; try done; try lia. cbn. apply IH. lia. Qed.
Lemma nth_drop_gt {A} (l : list A) i j : (i < j)%nat -> nth_error (drop_nth i l) (j - 1) = nth_error l j.
Proof.
  revert i j. induction l as [|a l IH]; intros i [|j] H; [lia| |lia|].
  - destruct i; cbn; by destruct (j - 0)%nat.
  - destruct i as [|i]; cbn; rewrite Nat.sub_0_r; [done|]. destruct j as [|j]; [lia|].
    specialize (IH i (S j) ltac:(lia)). cbn in IH |- *. by rewrite Nat.sub_0_r in IH.
Qed.
Lemma drop_drop {A} (l : list A) i j : (i < j)%nat -> drop_nth (j - 1) (drop_nth i l) = drop_nth i (drop_nth j l).
Proof.
  revert i j. induction l as [|a l IH]; intros i [|j] H; [lia| |lia|].
  - destruct i; cbn; by destruct (j - 0)%nat.
  - destruct i as [|i]; cbn; rewrite Nat.sub_0_r; [done|]. destruct j as [|j]; [lia|].
    specialize (IH i (S j) ltac:(lia)). cbn in IH |- *. rewrite Nat.sub_0_r in IH. exact (f_equal (cons a) IH).
Qed.

(** the effect of booking a reply *)
Definition bk_rec (x : call * reply) (p : prov) : prov :=
  match x with
  | (KUndel _ n, RDone _) => p_undelegated n p
  | (KUndel _ n, RFail) => p_undel_failed n p
  | (KDeleg _ n, RDone _) => p_delegated n p
  | (KDeleg _ n, RFail) => p_deleg_failed n p
  | (KWithd _, RDone v) => set_p_unstaked (p_unstaked p - v) p
  | _ => p
  end.
Definition cut (f v : N) : N := v * f / BPS.
Local Arguments cut : simpl never.
Definition bk_pool (f : N) (x : call * reply) (c : pool) : pool :=
  match x with
  | (KUndel _ n, RDone _) => set_pfb (pfb c + n) c
  | (KUndel _ n, RFail) => set_pfu (pfu c + n) c
  | (KDeleg _ n, RFail) => set_pend (pend c + n) c
  | (KWithd _, RDone v) => got_back v c
  | (KClaim _, RDone v) => let s := cut f v in
      Pool (supply c) (reserve c + (v - s)) (fees_res c + s) (withdrawn c) (pend c + (v - s)) (pfu c) (pfb c)
  | _ => c
  end.
Definition bk_pv (x : call * reply) (m : gmap N prov) : gmap N prov :=
  match about x with Some c => alter (bk_rec x) c m | None => m end.
Definition bk (x : call * reply) (w : world) : world :=
  set_egld (w_egld w + attached (fst x) (snd x))
    (set_pool (bk_pool (c_fees (w_cfg w)) x (w_pool w)) (set_pv (bk_pv x (w_pv w)) w)).

Lemma alter_in (f : prov -> prov) c (m : gmap N prov) p : m !! c = Some p -> alter f c m = <[c := f p]> m.
Proof. intros H. apply map_eq. intros k. destruct (decide (k = c)) as [->|E].
  - rewrite lookup_alter, H, lookup_insert. done.
  - rewrite lookup_alter_ne, lookup_insert_ne by done. done.
Qed.
Lemma alter_none (f : prov -> prov) c (m : gmap N prov) : (forall p, f p = p) -> alter f c m = m.
Proof. intros H. apply map_eq. intros k. destruct (decide (k = c)) as [->|E].
  - rewrite lookup_alter. destruct (m !! c); cbn; [by rewrite H|done].
  - by rewrite lookup_alter_ne.
Qed.
Lemma set_unstaked_0 p : set_p_unstaked (p_unstaked p - 0) p = p.
Proof. destruct p. cbn. unfold set_p_unstaked. cbn. by rewrite N.sub_0_r. Qed.
Lemma got_back_0 c : got_back 0 c = c.
Proof. destruct c. unfold got_back, set_pfb, set_withdrawn. cbn. by rewrite N.sub_0_r, N.add_0_r. Qed.

Definition forget (w : world) : world := set_log [] w.

Lemma bk_step w i x :
  nth_error (w_res w) i = Some x -> provider_reply x -> snd (step w (OCb i)) = SOk ->
  forget (fst (step w (OCb i))) = forget (set_res (drop_nth i (w_res w)) (bk x w))
  /\ match x with
     | (KUndel c n, RDone _) => exists p, w_pv w !! c = Some p /\ n <= p_staked p
     | (KWithd c, RDone v) => v <= pfb (w_pool w) /\ forall p, w_pv w !! c = Some p -> v <= p_unstaked p
     | _ => True
     end.
Proof.
  intros Hn Hp Hs. did_of w (OCb i) Hs; change (w_res (set_log [] w)) with (w_res w) in *;
    match goal with K : nth_error (w_res w) i = Some _ |- _ => rewrite K in Hn; injection Hn as <- end; try done;
    repeat match goal with r : reply |- _ => destruct r; try discriminate end; cbn [attached fst snd] in *; cbn in *.
  all: clear Hs Ew; unfold forget, bk, bk_pv; cbn [about fst snd attached bk_pool].
  all: try (match goal with K : w_pv _ !! ?c = Some ?p |- _ => rewrite (alter_in _ c _ p K) end).
  - split; [|by exists p]. subst k1. destruct w; cbn. by rewrite N.add_0_r.
  - subst k1. destruct w; cbn. by rewrite N.add_0_r.
  - destruct w; cbn. by rewrite N.add_0_r.
  - subst k1. by destruct w.
  - rewrite alter_none by done. destruct w; cbn. by rewrite N.add_0_r.
  - subst v. rewrite got_back_0, N.add_0_r, alter_none by apply set_unstaked_0. split; [by destruct w|].
    split; intros; apply N.le_0_l.
  - subst k1. split; [by destruct w|]. split; [done|]. intros q Hq. congruence.
  - destruct w; cbn. by rewrite N.add_0_r.
  - subst v. unfold cut. rewrite N.mul_0_l. destruct w as [g c]; destruct c; cbn. by rewrite !N.add_0_r.
Qed.

(** * Commutation *)
Lemma bk_pool_comm f x y c :
  provider_reply x -> provider_reply y ->
  (match x with (KWithd _, RDone v) => v <= pfb c | _ => True end) ->
  (match y with (KWithd _, RDone v) => v <= pfb c | _ => True end) ->
  bk_pool f x (bk_pool f y c) = bk_pool f y (bk_pool f x c).
Proof.
  destruct x as [[] []], y as [[] []]; try done; intros _ _ Hx Hy; destruct c; cbn in Hx, Hy |- *; unfold got_back, set_pfb, set_pfu, set_pend, set_withdrawn; cbn; clear -Hx Hy; f_equal; lia.
Qed.

Lemma bk_rec_comm x y p c :
  about x = Some c -> about y = Some c ->
  (match x with (KUndel _ n, RDone _) => n <= p_staked p | (KWithd _, RDone v) => v <= p_unstaked p | _ => True end) ->
  (match y with (KUndel _ n, RDone _) => n <= p_staked p | (KWithd _, RDone v) => v <= p_unstaked p | _ => True end) ->
  bk_rec x (bk_rec y p) = bk_rec y (bk_rec x p).
Proof.
  destruct x as [[] []], y as [[] []]; try done; intros _ _ Hx Hy; destruct p; cbn in *;
    unfold p_undelegated, p_delegated, p_undel_failed, p_deleg_failed, set_p_pun, set_p_unstaked; cbn; f_equal; lia.
Qed.

Lemma commute w i j x y :
  (i < j)%nat -> nth_error (w_res w) i = Some x -> nth_error (w_res w) j = Some y ->
  provider_reply x -> provider_reply y ->
  Forall (eq SOk) (statuses w [OCb i; OCb (j - 1)]) -> Forall (eq SOk) (statuses w [OCb j; OCb i]) ->
  set_log [] (run w [OCb i; OCb (j - 1)]) = set_log [] (run w [OCb j; OCb i]).
Proof.
  intros Hij Hx Hy Px Py H1 H2.
  change (Forall (eq SOk) [snd (step w (OCb i)); snd (step (fst (step w (OCb i))) (OCb (j - 1)))]) in H1.
  change (Forall (eq SOk) [snd (step w (OCb j)); snd (step (fst (step w (OCb j))) (OCb i))]) in H2.
  change (forget (fst (step (fst (step w (OCb i))) (OCb (j - 1)))) = forget (fst (step (fst (step w (OCb j))) (OCb i)))).
  apply Forall_cons_1 in H1 as [S1 H1]. apply Forall_cons_1 in H1 as [S2 _].
  apply Forall_cons_1 in H2 as [T1 H2]. apply Forall_cons_1 in H2 as [T2 _].
  destruct (bk_step w i x Hx Px (eq_sym S1)) as [A1 C1]. destruct (bk_step w j y Hy Py (eq_sym T1)) as [B1 D1].
  remember (fst (step w (OCb i))) as w1 eqn:X1. remember (fst (step w (OCb j))) as w2 eqn:X2. clear X1 X2.
  assert (R1 : w_res w1 = drop_nth i (w_res w)) by exact (f_equal w_res A1).
  assert (R2 : w_res w2 = drop_nth j (w_res w)) by exact (f_equal w_res B1).
  assert (N1 : nth_error (w_res w1) (j - 1) = Some y) by (rewrite R1, nth_drop_gt; done).
  assert (N2 : nth_error (w_res w2) i = Some x) by (rewrite R2, nth_drop_lt; done).
  destruct (bk_step w1 (j - 1) y N1 Py (eq_sym S2)) as [A2 _]. destruct (bk_step w2 i x N2 Px (eq_sym T2)) as [B2 _].
  rewrite A2, B2, R1, R2, drop_drop by done.
  assert (E1 : forall z, forget (set_res z (bk y w1)) = forget (set_res z (bk y (forget w1)))) by (intros; by destruct w1).
  assert (E2 : forall z, forget (set_res z (bk x w2)) = forget (set_res z (bk x (forget w2)))) by (intros; by destruct w2).
  rewrite E1, E2, A1, B1. unfold bk, forget. cbn.
  assert (Ep : bk_pool (c_fees (w_cfg w)) y (bk_pool (c_fees (w_cfg w)) x (w_pool w))
               = bk_pool (c_fees (w_cfg w)) x (bk_pool (c_fees (w_cfg w)) y (w_pool w))).
  { apply bk_pool_comm; try done; [clear -D1; destruct y as [[] []]; try done; apply D1|clear -C1; destruct x as [[] []]; try done; apply C1]. }
  assert (Ev : bk_pv y (bk_pv x (w_pv w)) = bk_pv x (bk_pv y (w_pv w))).
  { unfold bk_pv. destruct (about x) as [c|] eqn:Ax, (about y) as [d|] eqn:Ay; try done.
    destruct (decide (c = d)) as [<-|Hd]; [|symmetry; by apply alter_commute].
    rewrite <- !alter_compose. apply alter_ext. intros p Hp. cbn. symmetry. eapply bk_rec_comm; try eassumption.
    - clear -C1 Hp Ax. destruct x as [[] []]; try done; cbn in Ax; simplify_eq.
      + destruct C1 as (q & K & ?). congruence.
      + by apply C1.
    - clear -D1 Hp Ay. destruct y as [[] []]; try done; cbn in Ay; simplify_eq.
      + destruct D1 as (q & K & ?). congruence.
      + by apply D1. }
  rewrite Ep, Ev.
  assert (Ee : w_egld w + attached (fst x) (snd x) + attached (fst y) (snd y)
               = w_egld w + attached (fst y) (snd y) + attached (fst x) (snd x)) by (clear; lia).
  rewrite Ee. reflexivity.
Qed.

(** * Replies that have nothing to do with one another *)
Definition eff (b : bool) (x : call * reply) (w : world) : world :=
  if b then bk x w else set_egld (w_egld w + attached (fst x) (snd x)) w.

Lemma eff_step w i x :
  Reachable w -> nth_error (w_res w) i = Some x -> provider_reply x ->
  exists b, (b = true <-> bookable w (fst x) (snd x)) /\ (snd (step w (OCb i)) = SOk <-> b = true)
    /\ forget (fst (step w (OCb i))) = forget (set_res (drop_nth i (w_res w)) (eff b x w))
    /\ (b = true -> match x with (KWithd _, RDone v) => v <= pfb (w_pool w) | _ => True end).
Proof.
  intros Hr Hx Px. destruct x as [k r]. pose proof (reply_iff w i k r Hr Hx) as Hi. cbn [fst snd].
  assert (Eo : snd (step w (OCb i)) = SOk \/ snd (step w (OCb i)) <> SOk) by (destruct (snd (step w (OCb i))); [by left|by right..]).
  destruct Eo as [S|S].
  - exists true. split; [by rewrite <- Hi|]. split; [done|]. destruct (bk_step w i (k, r) Hx Px S) as [A C].
    split; [exact A|]. intros _. destruct k, r; try done. apply C.
  - exists false. rewrite <- Hi. split; [split; [done|intros ?; contradiction]|]. split; [split; [intros ?; contradiction|done]|].
    split; [|done]. rewrite Hi in S. destruct (reply_status w i k r Hr Hx S) as (e & _ & ->). reflexivity.
Qed.

Lemma independent_bookable b x y w z :
  (about x = None \/ about x <> about y) -> provider_reply x -> provider_reply y ->
  bookable (forget (set_res z (eff b x w))) (fst y) (snd y) <-> bookable w (fst y) (snd y).
Proof.
  intros Hn Px Py.
  assert (K : forall c, about y = Some c -> rec (forget (set_res z (eff b x w))) c = rec w c).
  { intros c Hc. unfold rec, forget. cbn. destruct b; cbn; [|done]. unfold bk_pv. destruct (about x) as [d|] eqn:Ed; [|done].
    rewrite lookup_alter_ne; [done|]. intros ->. destruct Hn; congruence. }
  assert (F : w_cfg (forget (set_res z (eff b x w))) = w_cfg w) by by destruct b.
  destruct y as [k r]. destruct k, r; cbn [bookable fst snd]; try done; cbn [about fst] in K; rewrite ?F, ?K by done; done.
Qed.

Lemma independent w i j x y :
  Reachable w -> (i < j)%nat -> nth_error (w_res w) i = Some x -> nth_error (w_res w) j = Some y ->
  provider_reply x -> provider_reply y -> (about x = None \/ about x <> about y) ->
  (snd (step (fst (step w (OCb i))) (OCb (j - 1))) = SOk <-> snd (step w (OCb j)) = SOk)
  /\ (snd (step (fst (step w (OCb j))) (OCb i)) = SOk <-> snd (step w (OCb i)) = SOk)
  /\ forget (fst (step (fst (step w (OCb i))) (OCb (j - 1)))) = forget (fst (step (fst (step w (OCb j))) (OCb i))).
Proof.
  intros Hr Hij Hx Hy Px Py Hn.
  destruct (eff_step w i x Hr Hx Px) as (bx & Ix & Sx & A1 & C1). destruct (eff_step w j y Hr Hy Py) as (b2 & Iy & Sy & B1 & D1).
  pose proof (reach_step w (OCb i) Hr) as Hr1. pose proof (reach_step w (OCb j) Hr) as Hr2.
  remember (fst (step w (OCb i))) as w1 eqn:X1. remember (fst (step w (OCb j))) as w2 eqn:X2. clear X1 X2.
  assert (R1 : w_res w1 = drop_nth i (w_res w)) by (pose proof (f_equal w_res A1) as Z; by destruct bx).
  assert (R2 : w_res w2 = drop_nth j (w_res w)) by (pose proof (f_equal w_res B1) as Z; by destruct b2).
  assert (N1 : nth_error (w_res w1) (j - 1) = Some y) by (rewrite R1, nth_drop_gt; done).
  assert (N2 : nth_error (w_res w2) i = Some x) by (rewrite R2, nth_drop_lt; done).
  destruct (eff_step w1 (j - 1) y Hr1 N1 Py) as (b1' & I1 & T1 & A2 & _).
  destruct (eff_step w2 i x Hr2 N2 Px) as (b2' & I2 & T2 & B2 & _).
  assert (Hn' : about y = None \/ about y <> about x).
  { destruct Hn as [E|E]; [|by right; apply not_eq_sym]. rewrite E. destruct (about y); [by right|by left]. }
  assert (J1 : b1' = b2).
  { apply eq_bool_prop_intro. rewrite !Is_true_true. rewrite I1, Iy.
    rewrite <- (independent_bookable bx x y w (drop_nth i (w_res w)) Hn Px Py), <- A1. destruct y as [[] []]; reflexivity. }
  assert (J2 : b2' = bx).
  { apply eq_bool_prop_intro. rewrite !Is_true_true. rewrite I2, Ix.
    rewrite <- (independent_bookable b2 y x w (drop_nth j (w_res w)) Hn' Py Px), <- B1. destruct x as [[] []]; reflexivity. }
  subst b1' b2'. split; [by rewrite T1, Sy|]. split; [by rewrite T2, Sx|].
  rewrite A2, B2, R1, R2, drop_drop by done.
  assert (E1 : forall z, forget (set_res z (eff b2 y w1)) = forget (set_res z (eff b2 y (forget w1)))) by (intros; by destruct w1, b2).
  assert (E2 : forall z, forget (set_res z (eff bx x w2)) = forget (set_res z (eff bx x (forget w2)))) by (intros; by destruct w2, bx).
  rewrite E1, E2, A1, B1.
  assert (Ee : w_egld w + attached (fst x) (snd x) + attached (fst y) (snd y)
               = w_egld w + attached (fst y) (snd y) + attached (fst x) (snd x)) by (clear; lia).
  assert (Ev : bk_pv y (bk_pv x (w_pv w)) = bk_pv x (bk_pv y (w_pv w))).
  { unfold bk_pv. destruct (about x) as [c|] eqn:Ax, (about y) as [d|] eqn:Ay; try done.
    symmetry. apply alter_commute. intros ->. destruct Hn; congruence. }
  destruct bx, b2; unfold eff, bk, forget; cbn; [|by rewrite Ee..].
  rewrite bk_pool_comm; [|done|done|by apply D1|by apply C1]. rewrite Ev, Ee. reflexivity.
Qed.
