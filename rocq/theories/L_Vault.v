(** L_Vault.v — to its holders the contract is a plain vault. *)
From Verif Require Export Spec22 L_Accept L_Donate Scenario.

Lemma bal_credit (m : gmap N N) k k' v : amt_at (credit m k v) k' = if k' =? k then amt_at m k' + v else amt_at m k'.
Proof. destruct (N.eqb_spec k' k) as [->|H]; unfold credit, amt_at; [by rewrite lookup_insert|by rewrite lookup_insert_ne]. Qed.
Lemma bal_insert (m : gmap N N) k k' v : amt_at (<[k := v]> m) k' = if k' =? k then v else amt_at m k'.
Proof. destruct (N.eqb_spec k' k) as [->|H]; unfold amt_at; [by rewrite lookup_insert|by rewrite lookup_insert_ne]. Qed.

Lemma set_self (m : gmap N N) k : amt_at (<[SELF := amt_at m SELF]> m) k = amt_at m k.
Proof. rewrite bal_insert. by destruct (N.eqb_spec k SELF) as [->|]. Qed.

Lemma shows_in w v u a : shows w v ->
  ls_supply w + minted a (w_pool w) = v_shares (book v (VIn u a)) /\ virtual_reserve w + a = v_assets (book v (VIn u a))
  /\ forall z, amt_at (credit (<[SELF := lbal w SELF]> (w_ls w)) u (minted a (w_pool w))) z = v_of (book v (VIn u a)) z.
Proof.
  intros (H1 & H2 & H3). unfold shows, ls_supply, virtual_reserve, ls_balance in *.
  assert (Hm : minted a (w_pool w) = shares_for v a).
  { unfold minted, shares_for. rewrite H1, H2. destruct (N.eqb_spec (v_assets v) 0) as [->|]; [done|].
    by replace (0 <? v_assets v) with true by lia. }
  cbn [book v_shares v_assets v_of]. rewrite Hm, H1, H2. split; [done|]. split; [done|]. intros z.
  rewrite bal_credit. unfold lbal. rewrite set_self. unfold more_for. by rewrite H3.
Qed.

Lemma vault_did w o w' s v : did w o w' s -> shows w v ->
  shows w' (fold_left book (match s with SOk => means w o | _ => [] end) v).
Proof.
  intros D Hv.
  destruct D; subst_pools;
    try (match goal with H : exec_call _ _ _ = _ |- _ => apply exec_call_frame in H as [l ->] end);
    cbn [means fold_left]; repeat match goal with H : nth_error _ _ = _ |- _ => rewrite H end; try exact Hv.
  - destruct s; [done|exact Hv|done|exact Hv].
  - destruct (shows_in w v caller a Hv) as (A & B & C). split; [exact A|]. split; [exact B|exact C].
  - um_clean. destruct Hv as (H1' & H2' & H3'). unfold ls_supply, virtual_reserve, ls_balance in *.
    assert (He : e = assets_for v x) by (subst e; unfold redeemed, assets_for; by rewrite H1', H2').
    split; [cbn; by rewrite H1'|]. split; [cbn; rewrite H2'; by rewrite <- He|].
    intros z. change (amt_at (<[SELF := lbal w SELF]> (<[caller := lbal w caller - x]> (w_ls w))) z = less_for caller x (v_of v) z).
    unfold lbal in *. rewrite !bal_insert. unfold less_for. rewrite <- H3'.
    destruct (N.eqb_spec z SELF) as [->|]; [|by destruct (N.eqb_spec z caller) as [->|]].
    by destruct (N.eqb_spec SELF caller) as [<-|].
  - match goal with H : match ?e with _ => _ end |- _ => destruct e; try (by exfalso); exact Hv end.
  - destruct (shows_in w v caller a Hv) as (A & B & C). split; [exact A|]. split; [exact B|exact C].
  - destruct Hv as (H1' & H2' & H3'). unfold shows, ls_supply, virtual_reserve, ls_balance in *. split; [exact H1'|]. split; [|exact H3'].
    cbn. by rewrite H2'.
  - destruct Hv as (H1' & H2' & H3'). unfold shows, ls_supply, virtual_reserve, ls_balance in *.
    destruct r as [|x]; cbn in *; [done|subst x; cbn; rewrite N.add_0_r; done].
  - destruct Hv as (H1' & H2' & H3'). unfold shows, ls_supply, virtual_reserve, ls_balance in *. split; [exact H1'|]. split; [|exact H3'].
    cbn -[N.div N.mul]. rewrite H2'. done.
  - destruct r as [|x]; [done|]. destruct (shows_in w v caller a Hv) as (A & B & C). split; [exact A|]. split; [exact B|exact C].
  - destruct r as [|x]; [exact Hv|done].
  - destruct Hv as (H1' & H2' & H3'). unfold shows, ls_supply, virtual_reserve, ls_balance in *. split; [exact H1'|]. split; [exact H2'|].
    intros z. change (amt_at (credit (<[from := lbal w from - a]> (w_ls w)) to a) z = more_for to a (less_for from a (v_of v)) z).
    unfold lbal in *. rewrite bal_credit, bal_insert. unfold more_for, less_for. rewrite <- H3'. by destruct (N.eqb_spec z from) as [->|].
Qed.

Lemma vault_step w o v : shows w v ->
  shows (fst (step w o)) (fold_left book (match snd (step w o) with SOk => means w o | _ => [] end) v).
Proof. intros Hv. exact (vault_did (set_log [] w) o _ _ v (step_did w o) Hv). Qed.
Lemma vault_from w os : forall v, shows w v -> shows (run w os) (fold_left book (bookings w os) v).
Proof.
  revert w. induction os as [|o os IH]; intros w v Hv; [exact Hv|]. cbn [run bookings]. rewrite fold_left_app.
  apply IH. by apply vault_step.
Qed.
Lemma empty_shows w : Deployed w -> shows w empty_vault.
Proof.
  intros (owner & acc & fees & rpe & minr & maxsel & maxaddr & unbond & epoch & H). unfold deploy in H.
  repeat (apply rbind_ok in H as [? [_ H]]). injection H as <-. repeat split.
Qed.
Lemma vault_history w os : Deployed w -> shows (run w os) (replay (bookings w os)).
Proof. intros Hd. apply vault_from. by apply empty_shows. Qed.

Lemma only_bookings w1 w2 os1 os2 : Deployed w1 -> Deployed w2 -> bookings w1 os1 = bookings w2 os2 ->
  ls_supply (run w1 os1) = ls_supply (run w2 os2) /\ virtual_reserve (run w1 os1) = virtual_reserve (run w2 os2)
  /\ (forall u, ls_balance u (run w1 os1) = ls_balance u (run w2 os2))
  /\ (forall a, ls_worth (run w1 os1) a = ls_worth (run w2 os2) a)
  /\ (forall x, egld_worth (run w1 os1) x = egld_worth (run w2 os2) x).
Proof.
  intros H1 H2 E. destruct (vault_history w1 os1 H1) as (A & B & C). destruct (vault_history w2 os2 H2) as (A' & B' & C').
  rewrite E in *. unfold ls_worth, egld_worth. rewrite A, B, A', B'. split; [done|]. split; [done|]. split; [|done].
  intros u. by rewrite C, C'.
Qed.

(** ** Every sensible sequence of bookings comes about *)
Record Open (w : world) (v : vault) : Prop := {
  on_reach : Reachable w; on_active : c_active (w_cfg w) = true; on_ls : c_lstok (w_cfg w) = TIssued;
  on_ust : c_usttok (w_cfg w) = TIssued; on_shows : shows w v }.
Definition op_of (b : booking) : op :=
  match b with
  | VIn u a => OTx u a [] Delegate
  | VOut u x => OTx u 0 [Pay TokLs x] UnDelegate
  | VGain r => OTx 100 r [] AddRewards
  | VMove from to x => OMoveLs from to x
  end.
Lemma shows_worth w v : shows w v -> (forall a, ls_worth w a = shares_for v a) /\ (forall x, egld_worth w x = assets_for v x).
Proof. intros (A & B & _). unfold ls_worth, egld_worth, shares_for, assets_for. by rewrite A, B. Qed.

Lemma move_accepted w from to x : from <> SELF -> x <= ls_balance from w -> snd (step w (OMoveLs from to x)) = SOk.
Proof.
  intros H1 H2. unfold step. cbn. replace (from =? SELF) with false by lia. unfold ls_balance in H2. cbn.
  unfold debit. cbn. by replace (x <=? amt_at (w_ls w) from) with true by lia.
Qed.
Lemma cfg_kept w b : snd (step w (op_of b)) = SOk -> w_cfg (fst (step w (op_of b))) = w_cfg w.
Proof.
  intros Hs. destruct b; cbn [op_of] in *.
  - did_of w (OTx u a [] Delegate) Hs. done.
  - did_of w (OTx u 0 [Pay TokLs x] UnDelegate) Hs. by um_clean.
  - did_of w (OTx 100 r [] AddRewards) Hs. done.
  - did_of w (OMoveLs from to x) Hs. done.
Qed.
Lemma open_step w v b : Open w v ->
  match b with
  | VIn u a => u <> SELF /\ ONE_EGLD <= a /\ 0 < shares_for v a
  | VOut u x => u <> SELF /\ 0 < x <= v_of v u /\ ONE_EGLD <= assets_for v x
  | VGain _ => True
  | VMove from _ x => from <> SELF /\ x <= v_of v from
  end ->
  snd (step w (op_of b)) = SOk /\ means w (op_of b) = [b] /\ Open (fst (step w (op_of b))) (book v b).
Proof.
  intros [Hr Ha Hl Hu Hv] Hb. destruct (shows_worth w v Hv) as [W1 W2].
  assert (Hone : 0 < ONE_EGLD) by done.
  assert (Hs : snd (step w (op_of b)) = SOk).
  { destruct b; cbn [op_of].
    - destruct Hb as (H1 & H2 & H3). apply accepted_iff; [done|done|]. unfold acceptable. cbv beta iota zeta. rewrite W1. split; [done|]. split; [done|]. split; [lia|].
      split; [done|]. split; [done|]. split; [done|]. by left.
    - destruct Hb as (H1 & H2 & H3). apply accepted_iff; [done|done|]. unfold acceptable. cbv beta iota zeta. split; [done|]. exists x. rewrite W2. split; [done|]. split; [done|].
      split; [done|]. split; [done|]. split; [lia|]. split; [by rewrite (proj2 (proj2 Hv)); lia|]. split; [lia|]. split; [by left|by right].
    - apply accepted_iff; [done|done|]. unfold acceptable. cbv beta iota zeta. split; [discriminate|]. done.
    - destruct Hb as (H1 & H2). apply move_accepted; [done|]. by rewrite (proj2 (proj2 Hv)). }
  assert (Hm : means w (op_of b) = [b]) by by destruct b.
  split; [done|]. split; [done|]. pose proof (vault_step w (op_of b) v Hv) as Hn. rewrite Hs, Hm in Hn.
  split; [by apply reach_step|rewrite cfg_kept by done; done..|exact Hn].
Qed.
Lemma open_run bs : forall w v, Open w v -> sensible v bs ->
  bookings w (map op_of bs) = bs /\ Forall (eq SOk) (statuses w (map op_of bs)).
Proof.
  induction bs as [|b bs IH]; intros w v Ho Hb; [split; [done|constructor]|]. destruct Hb as [Hb Hn].
  destruct (open_step w v b Ho Hb) as (Hs & Hm & Ho'). cbn [map bookings statuses]. rewrite Hs, Hm.
  destruct (IH _ _ Ho' Hn) as [-> Hst]. split; [done|]. by constructor.
Qed.

Lemma bookings_app w a b : bookings w (a ++ b) = bookings w a ++ bookings (run w a) b.
Proof. revert w. induction a as [|o a IH]; intros w; [done|]. cbn [app bookings run]. by rewrite IH, app_assoc. Qed.
Definition open_ops : list op := firstn 7 setup_ops.
Lemma open_start : Open (run w0 open_ops) empty_vault.
Proof.
  split; [apply reach_run, w0_reach|vm_compute; reflexivity..|]. unfold shows. split; [vm_compute; reflexivity|]. split; [vm_compute; reflexivity|].
  intros u. vm_compute. reflexivity.
Qed.
Lemma every_vault bs : sensible empty_vault bs ->
  exists w os, Deployed w /\ Forall (eq SOk) (statuses w os) /\ bookings w os = bs /\ shows (run w os) (replay bs).
Proof.
  intros Hb. destruct (open_run bs _ _ open_start Hb) as [H1 H2].
  assert (Hd : Deployed w0) by (do 9 eexists; exact w0_deployed).
  exists w0, (open_ops ++ map op_of bs).
  assert (E : bookings w0 (open_ops ++ map op_of bs) = bs).
  { rewrite bookings_app, H1. replace (bookings w0 open_ops) with (@nil booking) by (vm_compute; reflexivity). done. }
  split; [exact Hd|]. split.
  { rewrite statuses_app. apply list.Forall_app_2; [|exact H2]. vm_compute. repeat constructor. }
  split; [exact E|]. rewrite <- E at 2. by apply vault_history.
Qed.
