(** L_Mnet3.v — outcomes at the mocks, EGLD of the network. *)
From Verif Require Import L_Acct L_Books L_Order L_Flow L_Lists L_Frame L_Donate L_Batch.
From Verif Require Export L_Mnet2.

(** * What every mock keeps to *)
Definition mock_ok (epoch : N) (m : mock) : Prop :=
  m_dep m + m_und m <= m_supply m
  /\ (0 < m_und m -> exists e, e <= epoch /\ m_uepoch m = add64 e MOCK_UNBOND_PERIOD).
Definition Mocks (n : net) : Prop := forall c m, n_mocks n !! c = Some m -> mock_ok (w_epoch (n_w n)) m.

Lemma mock_ok_later e e' m : e <= e' -> mock_ok e m -> mock_ok e' m.
Proof. intros He [H1 H2]. split; [done|]. intros H. destruct (H2 H) as (x & Hx & E). exists x. split; [lia|done]. Qed.

Lemma mock_claim_ok e e' m m' v : mock_claim e m = Ok (m', v) -> mock_ok e' m -> mock_ok e' m'.
Proof.
  unfold mock_claim. destruct (m_last m <? e); [|by intros [= <- <-]]. destruct (0 <? _); [|by intros [= <- <-]].
  destruct (_ <=? m_egld m); [|done]. by intros [= <- <-].
Qed.

Lemma claim_loop_ok e e' l ms bal t ms' bal' t' :
  claim_loop e l ms bal t = Ok (ms', bal', t') ->
  (forall c m, ms !! c = Some m -> mock_ok e' m) -> forall c m, ms' !! c = Some m -> mock_ok e' m.
Proof.
  revert ms bal t. induction l as [|a l IH]; intros ms bal t H HM; cbn [claim_loop] in H; [by injection H as <- <- <-|].
  destruct (ms !! a) as [m|] eqn:E; [|done]. destruct (mock_claim e m) as [[m1 v]|] eqn:E1; [|done]. cbn in H.
  apply (IH _ _ _ H). intros c m2. destruct (decide (a = c)) as [->|Hne].
  - rewrite lookup_insert. intros [= <-]. eapply mock_claim_ok; [exact E1|]. by apply (HM c).
  - rewrite lookup_insert_ne by done. apply HM.
Qed.

Lemma epoch_grows w o : w_epoch w <= w_epoch (fst (step w o)).
Proof.
  assert (H : may_change w o Epoch = false -> w_epoch w <= w_epoch (fst (step w o))).
  { intros H. pose proof (frame_step w o Epoch H) as K. cbn in K. rewrite K. lia. }
  destruct o; try (by apply H).
  - apply H. cbn. by destruct ep.
  - apply H. cbn. destruct (nth_error (w_res w) i) as [[k r]|]; [|done]. destruct k, r; try done; match goal with b : bool |- _ => by destruct b end.
  - unfold step. cbn [w_epoch set_log]. destruct (_ <? U64); cbn; lia.
Qed.

Lemma insert_ok e (ms : gmap addr mock) c x :
  (forall d m, ms !! d = Some m -> mock_ok e m) -> mock_ok e x -> forall d m, <[c := x]> ms !! d = Some m -> mock_ok e m.
Proof.
  intros H Hx d m. destruct (decide (c = d)) as [->|E]; [rewrite lookup_insert; by intros [= <-]|].
  rewrite lookup_insert_ne by done. apply H.
Qed.

Lemma mocks_step n x : Mocks n -> Mocks (fst (nstep n x)).
Proof.
  intros H. set (e := w_epoch (n_w n)).
  assert (He : e <= w_epoch (n_w (fst (nstep n x)))) by (rewrite as_op_step; apply epoch_grows).
  intros c m Hm. apply (mock_ok_later e); [exact He|]. clear He. revert c m Hm.
  change (forall c m, n_mocks n !! c = Some m -> mock_ok e m) in H.
  destruct x as [o|i b|d v|d|d v|v]; cbn [nstep].
  - destruct o; try done; match goal with |- context [step ?a ?b] => by destruct (step a b) end.
  - destruct (nth_error (w_calls (n_w n)) i) as [k|]; [|done].
    assert (HA : forall c m, snd (fst (at_destination e b k (n_mocks n) (n_mgr n))) !! c = Some m -> mock_ok e m).
    { destruct k as [d a|d a|d|q|d a u|ls u a]; cbn [at_destination].
      - destruct (n_mocks n !! d) as [y|] eqn:E; cbn; [|done]. apply insert_ok; [done|]. destruct (H d y E) as [H1 H2]. split; cbn; [lia|done].
      - destruct (n_mocks n !! d) as [y|] eqn:E; cbn; [|done]. destruct (mock_undelegate e a y) as [y'|] eqn:E1; cbn; [|done].
        apply mock_undelegate_inv in E1 as [Ha ->]. apply insert_ok; [done|]. destruct (H d y E) as [H1 H2].
        split; cbn; [lia|]. intros _. exists e. split; [lia|done].
      - destruct (n_mocks n !! d) as [y|] eqn:E; cbn; [|done]. destruct (mock_withdraw e y) as [[y' v]|] eqn:E1; cbn; [|done].
        apply mock_withdraw_inv in E1 as (_ & -> & _ & _ & _ & ->). apply insert_ok; [done|]. destruct (H d y E) as [H1 H2].
        split; cbn; lia.
      - unfold claim_multiple. destruct (claim_loop e q (n_mocks n) (n_mgr n) 0) as [[[ms b1] t1]|] eqn:E; cbn; [|done].
        destruct (t1 <=? b1); cbn; [|done]. by apply (claim_loop_ok _ _ _ _ _ _ _ _ _ E).
      - destruct (n_mocks n !! d) as [y|] eqn:E; cbn; [|done]. apply insert_ok; [done|]. destruct (H d y E) as [H1 H2]. split; cbn; [lia|done].
      - done. }
    fold e. destruct (at_destination e b k _ _) as [[out ms] g]. by destruct (step (n_w n) _).
  - destruct (n_mocks n !! d) as [y|] eqn:E; cbn; [|done]. apply insert_ok; [done|]. destruct (H d y E) as [H1 H2]. split; cbn; [lia|done].
  - destruct (n_mocks n !! d) as [y|] eqn:E; cbn; [|done]. destruct (mock_claim _ y) as [[y' v]|] eqn:E1; cbn; [|done].
    apply insert_ok; [done|]. eapply mock_claim_ok; [exact E1|]. by apply (H d).
  - destruct (n_mocks n !! d) as [y|] eqn:E; cbn; [done|]. apply insert_ok; [done|]. split; cbn; lia.
  - done.
Qed.

Lemma mocks_run n xs : Mocks n -> Mocks (nrun n xs).
Proof. revert n. induction xs as [|x xs IH]; intros n H; [done|]. cbn. by apply IH, mocks_step. Qed.

Lemma start_mocks n : Start n -> Mocks n.
Proof. intros [_ H] c m Hm. destruct (H c m Hm) as [E1 E2]. unfold mock_ok. rewrite E1, E2. split; lia. Qed.

(** a withdrawal at the mock succeeds exactly if there is something due and EGLD for it *)
Lemma mock_withdraw_iff e m :
  mock_ok e m -> e + MOCK_UNBOND_PERIOD < 2 ^ 64 ->
  (0 < m_und m /\ m_uepoch m <= e /\ m_und m <= m_egld m) <-> exists m', mock_withdraw e m = Ok (m', m_und m).
Proof.
  intros [H1 H2] He. split.
  - intros (Ha & Hb & Hc). unfold mock_withdraw. replace (0 <? m_und m) with true by lia. cbn [require rbind].
    destruct (H2 Ha) as (x & Hx & Eu).
    assert (0 < m_uepoch m).
    { rewrite Eu. unfold add64. change U64 with (2 ^ 64). rewrite N.mod_small by lia. unfold MOCK_UNBOND_PERIOD. lia. }
    replace ((0 <? m_uepoch m) && (m_uepoch m <=? e)) with true by lia. cbn [require rbind]. unfold sub.
    replace (m_und m <=? m_supply m) with true by lia. cbn [rbind]. replace (m_und m <=? m_egld m) with true by lia. by eexists.
  - intros [m' E]. apply mock_withdraw_inv in E as (K1 & _ & K2 & K3 & _). lia.
Qed.

Lemma outcomes n0 xs i b k :
  Start n0 -> let n := nrun n0 xs in let n' := fst (nstep n (NExec i b)) in
  nth_error (w_calls (n_w n)) i = Some k ->
  exists r, w_res (n_w n') = w_res (n_w n) ++ [(k, r)]
  /\ match k with
     | KDeleg c a | KWhite c a _ =>
         (r = RDone 0 /\ is_Some (n_mocks n !! c) /\ kept_at n' c = (fst (kept_at n c) + a, snd (kept_at n c)))
         \/ (r = RFail /\ n_mocks n !! c = None /\ kept_at n' c = kept_at n c)
     | KUndel c a =>
         (r = RDone 0 /\ 0 < a <= fst (kept_at n c) /\ kept_at n' c = (fst (kept_at n c) - a, snd (kept_at n c) + a))
         \/ (r = RFail /\ (a = 0 \/ fst (kept_at n c) < a) /\ kept_at n' c = kept_at n c)
     | KWithd c =>
         w_epoch (n_w n) + 10 < 2 ^ 64 ->
         let due := exists m, n_mocks n !! c = Some m /\ 0 < m_und m /\ m_uepoch m <= w_epoch (n_w n) /\ m_und m <= m_egld m in
         (due /\ r = RDone (snd (kept_at n c)) /\ kept_at n' c = (fst (kept_at n c), 0))
         \/ (~ due /\ r = RFail /\ kept_at n' c = kept_at n c)
     | KClaim l =>
         match r with RDone v => at_mocks n = at_mocks n' + v | RFail => at_mocks n' = at_mocks n end
         /\ forall c, kept_at n' c = kept_at n c
     | KIssue _ _ _ => r = if b then RDone 0 else RFail
     end.
Proof.
  intros Hs n n' Hn.
  destruct (exec_world n i b k (match_run n0 xs (start_match n0 Hs)) Hn) as (r & l & ms & g & E1 & _ & Ha & _ & He).
  pose proof (mocks_run n0 xs (start_mocks n0 Hs)) as HK. fold n in HK.
  unfold n'. rewrite E1. cbn [n_w w_res set_res]. exists r. split; [done|].
  destruct k as [c a|c a|c|q|c a u|ls u a]; cbn [at_destination] in Ha.
  - destruct (n_mocks n !! c) as [m|] eqn:E; [left|right].
    + destruct r as [|v]; [done|]. injection Ha as <- <- <-. split; [done|]. split; [by eexists|]. rewrite kept_insert, N.eqb_refl.
      unfold kept_at. by rewrite E.
    + destruct r as [|v]; [|done]. by injection Ha as <- <-.
  - destruct (n_mocks n !! c) as [m|] eqn:E.
    + assert (Ek : kept_at n c = (m_dep m, m_und m)) by (unfold kept_at; by rewrite E). rewrite Ek. cbn [fst snd].
      destruct (mock_undelegate (w_epoch (n_w n)) a m) as [m'|] eqn:E2; [left|right].
      * destruct r as [|v]; [done|]. injection Ha as <- <- <-. apply mock_undelegate_inv in E2 as [Hb ->].
        split; [done|]. split; [done|]. by rewrite kept_insert, N.eqb_refl.
      * destruct r as [|v]; [|done]. injection Ha as <- <-. split; [done|]. split; [|by rewrite kept_net].
        unfold mock_undelegate in E2. destruct ((0 <? a) && (a <=? m_dep m)) eqn:B; [|lia]. cbn in E2. unfold sub in E2.
        replace (a <=? m_dep m) with true in E2 by lia. done.
    + assert (Ek : kept_at n c = (0, 0)) by (unfold kept_at; by rewrite E). rewrite Ek. cbn [fst snd].
      destruct r as [|v]; [|done]. injection Ha as <- <-. right. split; [done|]. split; [lia|]. by rewrite kept_net.
  - intros Hw. destruct (n_mocks n !! c) as [m|] eqn:E.
    + assert (Ek : kept_at n c = (m_dep m, m_und m)) by (unfold kept_at; by rewrite E). rewrite Ek. cbn [fst snd].
      pose proof (mock_withdraw_iff (w_epoch (n_w n)) m (HK c m E) Hw) as HI.
      destruct (mock_withdraw (w_epoch (n_w n)) m) as [[m' v]|] eqn:E2; [left|right].
      * destruct r as [|v']; [done|]. injection Ha as <- <- <-. pose proof E2 as E3. apply mock_withdraw_inv in E3 as (_ & -> & _ & _ & _ & ->).
        split; [|split; [done|by rewrite kept_insert, N.eqb_refl]]. exists m. split; [done|]. apply HI. by eexists.
      * destruct r as [|v]; [|done]. injection Ha as <- <-. split; [|split; [done|by rewrite kept_net]].
        intros (m1 & [= <-] & Hd). apply HI in Hd as [m' Hd]. congruence.
    + destruct r as [|v]; [|done]. injection Ha as <- <-. right. split; [|split; [done|by rewrite kept_net]]. by intros (m1 & H & _).
  - destruct (claim_multiple _ q _ _) as [[[[ms' g'] v] rep]|] eqn:E.
    + destruct r as [|v']; [done|]. injection Ha as <- <- <-. apply claim_multiple_inv in E as (-> & -> & Hsum & Hk & _). split; [exact Hsum|].
      intros c. unfold kept_at. cbn. specialize (Hk c). destruct (ms' !! c), (n_mocks n !! c); cbn in Hk; try done. congruence.
    + destruct r as [|v']; [|done]. by injection Ha as <- <-.
  - destruct (n_mocks n !! c) as [m|] eqn:E; [left|right].
    + destruct r as [|v]; [done|]. injection Ha as <- <- <-. split; [done|]. split; [by eexists|]. rewrite kept_insert, N.eqb_refl.
      unfold kept_at. by rewrite E.
    + destruct r as [|v]; [|done]. by injection Ha as <- <-.
  - destruct r, b; cbn in He; try done. injection He as <- _. done.
Qed.

(** * EGLD of the network *)
Lemma live_same w o : match o with OExec _ _ | OProvider _ _ _ => False | _ => True end -> w_live (fst (step w o)) = w_live w.
Proof.
  intros Ho. pose proof (step_did w o) as Hd. revert Ho. destruct Hd; intros Ho; try done.
  all: um_clean; reflexivity.
Qed.

Lemma at_mocks_insert n w g c m m' :
  n_mocks n !! c = Some m -> at_mocks (Net w (<[c := m']> (n_mocks n)) g) + m_egld m = at_mocks n + m_egld m'.
Proof.
  intros E. unfold at_mocks. cbn. pose proof (gsum_insert (fun _ m => m_egld m) (n_mocks n) c m') as H. unfold gat in H. rewrite E in H. lia.
Qed.

Lemma net_step_egld n x :
  Match n -> Reachable (n_w n) ->
  let n' := fst (nstep n x) in let s := snd (nstep n x) in
  net_egld n' + net_out n x s n' = net_egld n + net_in n x s n'.
Proof.
  intros HM Hr. cbn zeta. set (w := n_w n) in *.
  destruct x as [o|i b|c v|c|c v|v].
  - assert (Hgood : match o with OExec _ _ | OProvider _ _ _ => False | _ => True end ->
      net_egld (fst (nstep n (NDo o))) + net_out n (NDo o) (snd (nstep n (NDo o))) (fst (nstep n (NDo o)))
      = net_egld n + net_in n (NDo o) (snd (nstep n (NDo o))) (fst (nstep n (NDo o)))).
    { intros Ho. pose proof (whole_did (set_log [] w) o _ _ (acct_log _ (acct w Hr)) eq_refl (step_did w o)) as HW.
      pose proof (live_same w o Ho) as HL.
      assert (E : nstep n (NDo o) = (Net (fst (step w o)) (n_mocks n) (n_mgr n), snd (step w o))).
      { cbn [nstep]. fold w. destruct o; try done; by destruct (step w _). }
      rewrite E. cbn [fst snd]. unfold net_egld, contract_egld, at_mocks, whole, at_providers, under_way, on_way_back in *.
      cbn [n_w n_mocks n_mgr set_log w_live w_egld w_calls w_res] in *. rewrite HL in HW. fold w.
      unfold net_out, net_in. unfold egld_out, egld_in in HW. cbn [n_w] in *.
      destruct o; try done; destruct (snd (step w _)); lia. }
    destruct o; try (by apply Hgood); cbn [nstep fst snd]; unfold net_egld, net_out, net_in, contract_egld, at_mocks, under_way, on_way_back; cbn; fold w; lia.
  - destruct (nth_error (w_calls w) i) as [k|] eqn:En.
    2: { cbn [nstep]. fold w. rewrite En. unfold net_egld, net_out, net_in, contract_egld, at_mocks, under_way, on_way_back. cbn. fold w. destruct b; lia. }
    destruct (exec_world n i b k HM En) as (r & l & ms & g & E1 & E2 & Ha & _ & He). rewrite E1, E2. fold w in Ha, He |- *.
    unfold net_egld, net_out, net_in, contract_egld, under_way, on_way_back. fold w.
    cbn [n_w n_mgr w_egld w_calls w_res w_log set_res set_calls set_live set_log map sumN].
    rewrite map_app, sumN_app. cbn [map sumN]. pose proof (sumN_drop_nth carries i (w_calls w) k En) as HD. rewrite HD, En.
    set (X := sumN (map carries (drop_nth i (w_calls w)))). set (Y := sumN (map comes_with (w_res w))). clearbody X Y.
    enough (at_mocks (Net (n_w (fst (nstep n (NExec i b)))) ms g) + g + comes_with (k, r) + match k, r with KIssue _ _ a, RDone _ => a | _, _ => 0 end
            = at_mocks n + n_mgr n + carries k) as HE.
    { rewrite E1 in HE. unfold at_mocks in *. cbn [n_mocks] in *. 
      assert (match b with true => match k with KIssue _ _ a => a | _ => 0 end | false => 0 end = match k, r with KIssue _ _ a, RDone _ => a | _, _ => 0 end) as HX.
      { destruct k; try (by destruct b). destruct b, r; cbn in *; try done. }
      destruct b; rewrite <- HX in HE; lia. }
    destruct k as [c a|c a|c|q|c a u|ls u a]; cbn [at_destination] in Ha.
    + destruct (n_mocks n !! c) as [m|] eqn:E; destruct r as [|v]; try done; [injection Ha as <- <- <-|injection Ha as <- <-].
      * pose proof (at_mocks_insert n (n_w (fst (nstep n (NExec i b)))) (n_mgr n) c m (mock_delegate a m) E) as K. cbn in *. lia.
      * unfold at_mocks. cbn. lia.
    + destruct (n_mocks n !! c) as [m|] eqn:E; [|destruct r; try done; injection Ha as <- <-; unfold at_mocks; cbn; lia].
      destruct (mock_undelegate (w_epoch w) a m) as [m'|] eqn:E3; destruct r as [|v]; try done; [injection Ha as <- <- <-|injection Ha as <- <-].
      * apply mock_undelegate_inv in E3 as [_ ->].
        pose proof (at_mocks_insert n (n_w (fst (nstep n (NExec i b)))) (n_mgr n) c m (Mock (m_supply m) (m_dep m - a) (m_last m) (m_und m + a) (add64 (w_epoch w) MOCK_UNBOND_PERIOD) (m_egld m)) E) as K.
        cbn in *. lia.
      * unfold at_mocks. cbn. lia.
    + destruct (n_mocks n !! c) as [m|] eqn:E; [|destruct r; try done; injection Ha as <- <-; unfold at_mocks; cbn; lia].
      destruct (mock_withdraw (w_epoch w) m) as [[m' v']|] eqn:E3; destruct r as [|v]; try done; [injection Ha as <- <- <-|injection Ha as <- <-].
      * apply mock_withdraw_inv in E3 as (_ & -> & _ & Hle & _ & ->).
        pose proof (at_mocks_insert n (n_w (fst (nstep n (NExec i b)))) (n_mgr n) c m (Mock (m_supply m - m_und m) (m_dep m) (m_last m) 0 0 (m_egld m - m_und m)) E) as K.
        cbn in *. lia.
      * unfold at_mocks. cbn. lia.
    + destruct (claim_multiple _ q _ _) as [[[[ms' g'] v'] rep]|] eqn:E; destruct r as [|v]; try done; [injection Ha as <- <- <-|injection Ha as <- <-].
      * apply claim_multiple_inv in E as (-> & -> & Hsum & _). unfold at_mocks. cbn in *. lia.
      * unfold at_mocks. cbn. lia.
    + destruct (n_mocks n !! c) as [m|] eqn:E; destruct r as [|v]; try done; [injection Ha as <- <- <-|injection Ha as <- <-].
      * pose proof (at_mocks_insert n (n_w (fst (nstep n (NExec i b)))) (n_mgr n) c m (mock_delegate a m) E) as K. cbn in *. lia.
      * unfold at_mocks. cbn. lia.
    + destruct r as [|v]; injection Ha as _ <- <-; unfold at_mocks; cbn; lia.
  - cbn [nstep]. fold w. destruct (n_mocks n !! c) as [m|] eqn:E; cbn [fst snd].
    + pose proof (at_mocks_insert n (set_log [] w) (n_mgr n) c m (mock_deposit v m) E) as K.
      unfold net_egld, net_out, net_in, contract_egld, under_way, on_way_back. cbn in *. fold w. lia.
    + unfold net_egld, net_out, net_in, contract_egld, at_mocks, under_way, on_way_back. cbn. fold w. lia.
  - cbn [nstep]. fold w. destruct (n_mocks n !! c) as [m|] eqn:E; cbn [fst snd].
    + destruct (mock_claim (w_epoch w) m) as [[m' v]|] eqn:E1; cbn [fst snd].
      * apply mock_claim_inv in E1 as (_ & _ & E1).
        pose proof (at_mocks_insert n (set_log [] w) (n_mgr n) c m m' E) as K.
        unfold net_egld, net_out, net_in, contract_egld, under_way, on_way_back. cbn in *. fold w. lia.
      * unfold net_egld, net_out, net_in, contract_egld, at_mocks, under_way, on_way_back. cbn. fold w. lia.
    + unfold net_egld, net_out, net_in, contract_egld, at_mocks, under_way, on_way_back. cbn. fold w. lia.
  - cbn [nstep]. fold w. destruct (n_mocks n !! c) as [m|] eqn:E; cbn [fst snd].
    + unfold net_egld, net_out, net_in, contract_egld, at_mocks, under_way, on_way_back. cbn. fold w. lia.
    + unfold net_egld, net_out, net_in, contract_egld, at_mocks, under_way, on_way_back. cbn.
      rewrite gsum_insert_new by done. cbn. fold w. lia.
  - cbn [nstep fst snd]. unfold net_egld, net_out, net_in, contract_egld, at_mocks, under_way, on_way_back. cbn. fold w. lia.
Qed.

Lemma net_conserves n xs :
  Start n -> net_egld (nrun n xs) + ntally net_out n xs = net_egld n + ntally net_in n xs.
Proof.
  intros Hs. pose proof (start_match n Hs) as HM. assert (Hr : Reachable (n_w n)) by (apply deployed_reach, Hs). clear Hs.
  revert n HM Hr. induction xs as [|x xs IH]; intros n HM Hr; [done|]. cbn [nrun ntally].
  pose proof (net_step_egld n x HM Hr) as H. cbn zeta in H.
  assert (Hr' : Reachable (n_w (fst (nstep n x)))) by (rewrite as_op_step; by constructor).
  specialize (IH _ (match_step n x HM) Hr'). lia.
Qed.

(** * The balance of one mock *)
Lemma mock_egld_insert w ms g c m d :
  mock_egld (Net w (<[c := m]> ms) g) d = if d =? c then m_egld m else mock_egld (Net w ms g) d.
Proof.
  unfold mock_egld. cbn. destruct (N.eqb_spec d c) as [->|E]; [by rewrite lookup_insert|by rewrite lookup_insert_ne].
Qed.
Definition sum2 (x : N * N) : N := fst x + snd x.

Lemma claim_loop_le e l ms bal t ms' bal' t' c :
  claim_loop e l ms bal t = Ok (ms', bal', t') ->
  match ms' !! c with Some m => m_egld m | None => 0 end <= match ms !! c with Some m => m_egld m | None => 0 end.
Proof.
  revert ms bal t. induction l as [|a l IH]; intros ms bal t H; cbn [claim_loop] in H; [injection H as <- <- <-; lia|].
  destruct (ms !! a) as [m|] eqn:E; [|done]. destruct (mock_claim e m) as [[m1 v]|] eqn:E1; [|done]. cbn in H.
  apply IH in H. apply mock_claim_inv in E1 as (_ & _ & E1). destruct (decide (a = c)) as [->|Hne].
  - rewrite lookup_insert in H. rewrite E. lia.
  - by rewrite lookup_insert_ne in H.
Qed.

Lemma mock_step_egld n x c :
  Match n -> let n' := fst (nstep n x) in let s := snd (nstep n x) in
  mock_egld n' c + rewards_paid c n x s n' + sum2 (kept_at n c) = mock_egld n c + funded c n x s n' + sum2 (kept_at n' c).
Proof.
  intros HM. cbn zeta. set (w := n_w n) in *.
  destruct x as [o|i b|d v|d|d v|v].
  - assert (E : exists w', fst (nstep n (NDo o)) = Net w' (n_mocks n) (n_mgr n)).
    { cbn [nstep]. destruct o; try (by eexists); match goal with |- context [step ?a ?b] => destruct (step a b) end; by eexists. }
    destruct E as [w' ->]. unfold funded, rewards_paid, mock_egld, kept_at. cbn. lia.
  - destruct (nth_error (w_calls w) i) as [k|] eqn:En.
    2: { unfold rewards_paid. fold w. rewrite En. cbn [nstep]. fold w. rewrite En. cbn [funded fst snd]. unfold mock_egld, kept_at. cbn. lia. }
    unfold rewards_paid. fold w. rewrite En.
    destruct (exec_world n i b k HM En) as (r & l & ms & g & E1 & E2 & Ha & _ & _). rewrite E1, E2. fold w in Ha |- *. cbn [funded].
    set (w' := set_res _ _). clearbody w'.
    destruct k as [a x|a x|a|q|a x u|ls u x]; cbn [at_destination] in Ha.
    + destruct (n_mocks n !! a) as [m|] eqn:E; destruct r as [|v]; try done; [injection Ha as <- <- <-|injection Ha as <- <-]; [|unfold mock_egld, kept_at; cbn; lia].
      rewrite mock_egld_insert, kept_insert. destruct (N.eqb_spec c a) as [->|]; [|unfold mock_egld, kept_at; cbn; lia].
      unfold mock_egld, kept_at, sum2. rewrite E. cbn. lia.
    + destruct (n_mocks n !! a) as [m|] eqn:E; [|destruct r; try done; injection Ha as <- <-; unfold mock_egld, kept_at; cbn; lia].
      destruct (mock_undelegate (w_epoch w) x m) as [m'|] eqn:E3; destruct r as [|v]; try done; [injection Ha as <- <- <-|injection Ha as <- <-]; [|unfold mock_egld, kept_at; cbn; lia].
      apply mock_undelegate_inv in E3 as [Hle ->].
      rewrite mock_egld_insert, kept_insert. destruct (N.eqb_spec c a) as [->|]; [|unfold mock_egld, kept_at; cbn; lia].
      unfold mock_egld, kept_at, sum2. rewrite E. cbn. lia.
    + destruct (n_mocks n !! a) as [m|] eqn:E; [|destruct r; try done; injection Ha as <- <-; unfold mock_egld, kept_at; cbn; lia].
      destruct (mock_withdraw (w_epoch w) m) as [[m' v']|] eqn:E3; destruct r as [|v]; try done; [injection Ha as <- <- <-|injection Ha as <- <-]; [|unfold mock_egld, kept_at; cbn; lia].
      apply mock_withdraw_inv in E3 as (_ & -> & _ & Hle & _ & ->).
      rewrite mock_egld_insert, kept_insert. destruct (N.eqb_spec c a) as [->|]; [|unfold mock_egld, kept_at; cbn; lia].
      unfold mock_egld, kept_at, sum2. rewrite E. cbn. lia.
    + destruct (claim_multiple _ q _ _) as [[[[ms' g'] v'] rep]|] eqn:E; destruct r as [|v]; try done; [injection Ha as <- <- <-|injection Ha as <- <-]; [|unfold mock_egld, kept_at; cbn; lia].
      assert (Hle : mock_egld (Net w' ms' g') c <= mock_egld n c).
      { unfold claim_multiple in E. destruct (claim_loop _ q _ _ 0) as [[[ms1 b1] t1]|] eqn:EL; [|done]. cbn in E.
        destruct (t1 <=? b1); [|done]. injection E as -> _ _ _. exact (claim_loop_le _ _ _ _ _ _ _ _ c EL). }
      apply claim_multiple_inv in E as (-> & -> & _ & Hk & _).
      assert (kept_at (Net w' ms' (n_mgr n)) c = kept_at n c) as ->.
      { unfold kept_at. cbn. specialize (Hk c). destruct (ms' !! c), (n_mocks n !! c); cbn in Hk; try done. congruence. }
      lia.
    + destruct (n_mocks n !! a) as [m|] eqn:E; destruct r as [|v]; try done; [injection Ha as <- <- <-|injection Ha as <- <-]; [|unfold mock_egld, kept_at; cbn; lia].
      rewrite mock_egld_insert, kept_insert. destruct (N.eqb_spec c a) as [->|]; [|unfold mock_egld, kept_at; cbn; lia].
      unfold mock_egld, kept_at, sum2. rewrite E. cbn. lia.
    + destruct r as [|v]; injection Ha as _ <- <-; unfold mock_egld, kept_at; cbn; lia.
  - cbn [nstep rewards_paid]. fold w. destruct (n_mocks n !! d) as [m|] eqn:E; cbn [fst snd funded]; [|unfold mock_egld, kept_at; cbn; lia].
    rewrite mock_egld_insert, kept_insert, (N.eqb_sym c d). destruct (N.eqb_spec d c) as [->|]; [|unfold mock_egld, kept_at; cbn; lia].
    unfold mock_egld, kept_at, sum2. rewrite E. cbn. lia.
  - cbn [nstep rewards_paid]. fold w. destruct (n_mocks n !! d) as [m|] eqn:E; cbn [fst snd funded]; [|unfold mock_egld, kept_at; cbn; lia].
    destruct (mock_claim (w_epoch w) m) as [[m' v]|] eqn:E1; cbn [fst snd funded]; [|unfold mock_egld, kept_at; cbn; lia].
    apply mock_claim_inv in E1 as (E2 & E3 & E1). rewrite mock_egld_insert, kept_insert.
    destruct (N.eqb_spec c d) as [->|]; [|unfold mock_egld, kept_at; cbn; lia].
    unfold mock_egld, kept_at, sum2. rewrite E. cbn. lia.
  - cbn [nstep rewards_paid]. fold w. destruct (n_mocks n !! d) as [m|] eqn:E; cbn [fst snd funded]; [unfold mock_egld, kept_at; cbn; lia|].
    rewrite mock_egld_insert, kept_insert, (N.eqb_sym c d). destruct (N.eqb_spec d c) as [->|]; [|unfold mock_egld, kept_at; cbn; lia].
    unfold mock_egld, kept_at, sum2. rewrite E. cbn. lia.
  - cbn. unfold mock_egld, kept_at. cbn. lia.
Qed.

Lemma mock_balance n xs c :
  Start n ->
  mock_egld (nrun n xs) c + ntally (rewards_paid c) n xs
  = mock_egld n c + ntally (funded c) n xs + fst (kept_at (nrun n xs) c) + snd (kept_at (nrun n xs) c).
Proof.
  intros Hs. pose proof (start_match n Hs) as HM.
  assert (H : forall n, Match n -> mock_egld (nrun n xs) c + ntally (rewards_paid c) n xs + sum2 (kept_at n c)
    = mock_egld n c + ntally (funded c) n xs + sum2 (kept_at (nrun n xs) c)).
  { clear. induction xs as [|x xs IH]; intros n HM; [cbn; lia|]. cbn [nrun ntally].
    pose proof (mock_step_egld n x c HM) as H. cbn zeta in H. specialize (IH _ (match_step n x HM)). lia. }
  specialize (H n HM). assert (sum2 (kept_at n c) = 0) as E.
  { unfold kept_at, sum2. destruct (n_mocks n !! c) as [m|] eqn:E; [|done]. destruct Hs as [_ Hs]. destruct (Hs c m E) as [E1 E2]. cbn. lia. }
  unfold sum2 in *. lia.
Qed.
