(** L_Inv.v — what a successful call did: inversion lemmas for every endpoint
    and callback. *)
From Verif Require Export L_Base.

Ltac bsplit :=
  repeat match goal with
  | H : context [if ?b then _ else _] |- _ =>
      match b with
      | context [if _ then _ else _] => fail 1
      | _ => let E := fresh "B" in destruct b eqn:E
      end
  | |- context [if ?b then _ else _] =>
      match b with
      | context [if _ then _ else _] => fail 1
      | _ => let E := fresh "B" in destruct b eqn:E
      end
  end.

(** * Matching against the opposite queue *)
Definition split_of (q a : N) : N * N :=
  if a =? q then (a, 0)
  else if a + MIN_EGLD <=? q then (a, 0)
  else if q + MIN_EGLD <=? a then (q, a - q)
  else if (q <=? MIN_EGLD) || (a <=? MIN_EGLD) then (0, a)
  else (N.min a q - MIN_EGLD, a - (N.min a q - MIN_EGLD)).

Lemma MIN_pos : 0 < MIN_EGLD.
Proof. done. Qed.

Lemma action_eq q a : get_action_amount q a = Ok (split_of q a).
Proof.
  pose proof MIN_pos as HM.
  unfold get_action_amount, can_instant, can_fully_redeem, partial_redeem,
    calculate_instant_amount, split_of, sub, rbind.
  repeat match goal with
  | |- context [if ?b then _ else _] =>
      match b with
      | context [if _ then _ else _] => fail 1
      | _ => let E := fresh "B" in destruct b eqn:E; try (exfalso; lia)
      end
  end; try done; try (f_equal; f_equal; lia); try (exfalso; lia).
Qed.

Lemma split_facts q a :
  let i := fst (split_of q a) in let r := snd (split_of q a) in
  i + r = a /\ i <= q /\ (i = 0 \/ q - i = 0 \/ MIN_EGLD <= q - i)
  /\ (MIN_EGLD <= a -> r = 0 \/ MIN_EGLD <= r).
Proof.
  pose proof MIN_pos as HM. unfold split_of. bsplit; simpl; lia.
Qed.

(** * Ledger after minting to the contract and sending on *)
Lemma mint_send_ls to m w w' :
  send_ls to m (mint_ls m w) = Ok w' ->
  w' = emit (XLs to m) (set_ls (credit (<[SELF := lbal w SELF]> (w_ls w)) to m) w).
Proof.
  unfold send_ls, mint_ls. intros H. rstep H.
  unfold emit, set_ls, set_log, credit, lbal. simpl in *.
  rewrite insert_insert, (amt_insert (w_ls w) SELF SELF), decide_True by done.
  replace (amt_at (w_ls w) SELF + m - m) with (amt_at (w_ls w) SELF) by lia. done.
Qed.

Lemma mint_send_ls_ok to m w :
  send_ls to m (mint_ls m w) =
  Ok (emit (XLs to m) (set_ls (credit (<[SELF := lbal w SELF]> (w_ls w)) to m) w)).
Proof.
  destruct (send_ls to m (mint_ls m w)) as [w'|e] eqn:E.
  - by rewrite (mint_send_ls _ _ _ _ E).
  - exfalso. revert E. unfold send_ls, mint_ls, debit. simpl.
    unfold credit. rewrite amt_insert, decide_True by done.
    destruct (m <=? amt_at (w_ls w) SELF + m) eqn:B; [done|lia].
Qed.

(** * Pool *)
Definition minted (a : N) (c : pool) : N :=
  if 0 <? reserve c then a * supply c / reserve c else a.
Definition redeemed (x : N) (c : pool) : N := x * reserve c / supply c.

Lemma get_ls_amount_inv a c m :
  get_ls_amount a c = Ok m -> m = minted a c /\ 0 < m.
Proof.
  unfold get_ls_amount, minted. intros H. apply rbind_ok in H as [x [E H]].
  rstep H. destruct (0 <? reserve c) eqn:B; rstep E; split; try done; lia.
Qed.

Lemma get_ls_amount_ok a c : 0 < minted a c -> get_ls_amount a c = Ok (minted a c).
Proof.
  unfold get_ls_amount, minted. intros H. destruct (0 <? reserve c) eqn:B.
  - rewrite div_nz by lia. simpl. destruct (0 <? a * supply c / reserve c) eqn:B2; [done|lia].
  - simpl. destruct (0 <? a) eqn:B2; [done|lia].
Qed.

Lemma get_egld_amount_inv x c e :
  get_egld_amount x c = Ok e ->
  x <= supply c /\ 0 < supply c /\ e = redeemed x c /\ 0 < e.
Proof.
  unfold get_egld_amount, redeemed. intros H. rstep H. lia.
Qed.

Lemma get_egld_amount_ok x c :
  x <= supply c -> 0 < redeemed x c -> get_egld_amount x c = Ok (redeemed x c).
Proof.
  unfold get_egld_amount, redeemed. intros H1 H2.
  assert (supply c <> 0) by (intros E; rewrite E, Ndiv0 in H2; lia).
  destruct (x <=? supply c) eqn:B; [|lia]. simpl. rewrite div_nz by done. simpl.
  destruct (0 <? _) eqn:B2; [done|lia].
Qed.

Definition pool_plus (a : N) (c : pool) : pool :=
  set_reserve (reserve c + a) (set_supply (supply c + minted a c) c).
Definition pool_minus (x : N) (c : pool) : pool :=
  set_reserve (reserve c - redeemed x c) (set_supply (supply c - x) c).

Lemma pool_add_inv a c m c' :
  pool_add_liquidity a c = Ok (m, c') -> m = minted a c /\ 0 < m /\ c' = pool_plus a c.
Proof.
  unfold pool_add_liquidity. intros H. apply rbind_ok in H as [x [E H]].
  apply get_ls_amount_inv in E as [-> E]. rstep H. auto.
Qed.

Lemma pool_remove_inv x c e c' :
  pool_remove_liquidity x c = Ok (e, c') ->
  e = redeemed x c /\ 0 < e /\ x <= supply c /\ 0 < supply c /\ e <= reserve c
  /\ c' = pool_minus x c.
Proof.
  unfold pool_remove_liquidity. intros H. apply rbind_ok in H as [y [E H]].
  apply get_egld_amount_inv in E as (?&?&->&?). rstep H. done.
Qed.

Lemma redeemed_le x c : x <= supply c -> redeemed x c <= reserve c.
Proof.
  unfold redeemed. intros H. destruct (decide (supply c = 0)) as [E|E].
  - rewrite E, Ndiv0. lia.
  - apply N.div_le_upper_bound; [done|]. nia.
Qed.

Lemma pool_remove_ok x c :
  x <= supply c -> 0 < redeemed x c ->
  pool_remove_liquidity x c = Ok (redeemed x c, pool_minus x c).
Proof.
  intros H1 H2. unfold pool_remove_liquidity. rewrite get_egld_amount_ok by done. simpl.
  rewrite sub_le by done. simpl. rewrite sub_le by (by apply redeemed_le). done.
Qed.

(** * delegate *)
Definition delegate_pool (a : N) (c : pool) : pool :=
  let i := fst (split_of (pfu c) a) in let r := snd (split_of (pfu c) a) in
  pool_plus a (Pool (supply c) (reserve c) (fees_res c) (withdrawn c + i) (pend c + r)
                 (pfu c - i) (pfb c)).

Definition ls_paid (to m : N) (w : world) : world :=
  set_ls (credit (<[SELF := lbal w SELF]> (w_ls w)) to m) w.

Lemma process_delegation_inv caller i r c w c' w' :
  process_delegation caller i r c w = Ok (c', w') -> 0 < i + r ->
  i <= pfu c /\ 0 < minted (i + r) c
  /\ (i = 0 \/ pfu c - i = 0 \/ MIN_EGLD <= pfu c - i)
  /\ (r = 0 \/ MIN_EGLD <= pend c + r)
  /\ c' = pool_plus (i + r)
           (Pool (supply c) (reserve c) (fees_res c) (withdrawn c + i) (pend c + r) (pfu c - i) (pfb c))
  /\ w' = emit (EvAdd (i + r) caller c' (w_epoch w))
            (emit (XLs caller (minted (i + r) c)) (ls_paid caller (minted (i + r) c) w)).
Proof.
  unfold process_delegation. intros H Hpos.
  apply rbind_ok in H as [[c1 f1] [E1 H]]. apply rbind_ok in H as [[c2 f2] [E2 H]].
  assert (H1 : f1 = i /\ i <= pfu c /\ (i = 0 \/ pfu c - i = 0 \/ MIN_EGLD <= pfu c - i)
    /\ c1 = Pool (supply c) (reserve c) (fees_res c) (withdrawn c + i) (pend c) (pfu c - i) (pfb c)).
  { destruct (0 <? i) eqn:B.
    - unfold decrease_pending_egld in E1. rstep E1. cbn in *. subst. split_and!; try done; lia.
    - rstep E1. split_and!; try lia. destruct c1; simpl; f_equal; lia. }
  destruct H1 as (-> & Hi & Hq & ->).
  assert (H2 : f2 = i + r /\ (r = 0 \/ MIN_EGLD <= pend c + r)
    /\ c2 = Pool (supply c) (reserve c) (fees_res c) (withdrawn c + i) (pend c + r) (pfu c - i) (pfb c)).
  { destruct (0 <? r) eqn:B.
    - unfold increase_pending_egld in E2. rstep E2. cbn in *. subst. split_and!; try done; lia.
    - rstep E2. split_and!; try lia. simpl; f_equal; lia. }
  destruct H2 as (-> & Hr & ->).
  destruct (0 <? i + r) eqn:B; [|lia].
  apply rbind_ok in H as [[m c3] [E3 H]]. apply pool_add_inv in E3 as (-> & Hm & ->).
  apply rbind_ok in H as [w1 [E4 H]]. apply mint_send_ls in E4 as ->.
  rstep H. cbn in *. split_and!; try done. rewrite (N.add_comm r i). done.
Qed.

Lemma delegate_inv caller a w w' :
  delegate caller a w = Ok w' ->
  let c := w_pool w in
  c_lstok (w_cfg w) = TIssued /\ c_active (w_cfg w) = true /\ 0 < a
  /\ 0 < minted a c
  /\ (snd (split_of (pfu c) a) = 0 \/ MIN_EGLD <= pend c + snd (split_of (pfu c) a))
  /\ w' = commit (delegate_pool a c)
            (emit (EvAdd a caller (delegate_pool a c) (w_epoch w))
              (emit (XLs caller (minted a c)) (ls_paid caller (minted a c) w))).
Proof.
  unfold delegate. intros H. rstep H. rewrite action_eq in E2. rstep E2.
  pose proof (split_facts (pfu (w_pool w)) a) as Hs.
  destruct (split_of (pfu (w_pool w)) a) as [i r] eqn:Es. simpl in Hs.
  rstep H. simplify_eq. destruct Hs as (Ha & _).
  lazymatch goal with E : process_delegation _ _ _ _ _ = _ |- _ =>
    apply process_delegation_inv in E as (H1 & H2 & H3 & H4 & -> & ->); [|lia] end.
  rewrite Ha in *. unfold delegate_pool. rewrite Es. simpl.
  split_and!; try done. lia.
Qed.

(** * Unstake tokens *)

(** What issuing [a] unstake tokens for release epoch [u] to [caller] does. *)
Inductive ust_issue (caller a u : N) (w : world) : N -> world -> Prop :=
| ui_more n :
    w_un w !! u = Some n -> 0 < ubal w n SELF ->
    ust_issue caller a u w n
      (emit (XUst caller n a)
        (set_ust (credit (<[(n, SELF) := ubal w n SELF]> (w_ust w)) (n, caller) a) w))
| ui_first :
    w_un w !! u = None -> w_last w = 0 ->
    ust_issue caller a u w 1
      (emit (XUst caller 1 a)
        (set_un (<[u := 1]> (w_un w))
        (set_ust (credit (<[(1, SELF) := ubal w 1 SELF + 1]> (w_ust w)) (1, caller) a)
        (set_attr (<[1 := (w_epoch w, u)]> (w_attr w)) (set_last 1 w)))))
| ui_new e0 u0 :
    w_un w !! u = None -> 0 < w_last w -> 0 < ubal w (w_last w) SELF ->
    w_attr w !! w_last w = Some (e0, u0) -> w_epoch w <= e0 ->
    ust_issue caller a u w (w_last w + 1)
      (emit (XUst caller (w_last w + 1) a)
        (set_un (<[u := w_last w + 1]> (w_un w))
        (set_ust (credit (<[(w_last w + 1, SELF) := ubal w (w_last w + 1) SELF + 1]> (w_ust w))
                    (w_last w + 1, caller) a)
        (set_attr (<[w_last w + 1 := (w_epoch w, u)]> (w_attr w)) (set_last (w_last w + 1) w)))))
| ui_clean e0 u0 :
    w_un w !! u = None -> 0 < w_last w -> 0 < ubal w (w_last w) SELF ->
    w_attr w !! w_last w = Some (e0, u0) -> e0 < w_epoch w ->
    ust_issue caller a u w (w_last w + 1)
      (emit (XUst caller (w_last w + 1) a)
        (set_un (delete u0 (<[u := w_last w + 1]> (w_un w)))
        (set_ust (credit (<[(w_last w + 1, SELF) := ubal w (w_last w + 1) SELF + 1]>
                          (<[(w_last w, SELF) := 0]> (w_ust w)))
                    (w_last w + 1, caller) a)
        (set_attr (<[w_last w + 1 := (w_epoch w, u)]> (w_attr w)) (set_last (w_last w + 1) w))))).

Lemma credit_debit_ust (m : gmap (N * N) N) n a m' k :
  debit (<[(n, SELF) := k + a]> m) (n, SELF) a = Ok m' -> m' = <[(n, SELF) := k]> m.
Proof.
  intros H. apply debit_ok in H as [_ ->].
  rewrite amt_insert, decide_True, insert_insert by done. f_equal. lia.
Qed.

Lemma debit_ust_eq (m : gmap (N * N) N) n a k :
  debit (<[(n, SELF) := k + a]> m) (n, SELF) a = Ok (<[(n, SELF) := k]> m).
Proof.
  rewrite debit_le; rewrite amt_insert, decide_True by done; [|lia].
  rewrite insert_insert. do 2 f_equal. lia.
Qed.

Lemma issue_inv caller a u w n w1 w2 :
  mint_unstake_tokens (w_epoch w, u) a u (w_epoch w) w = Ok (n, w1) ->
  send_ust caller n a w1 = Ok w2 ->
  c_usttok (w_cfg w) = TIssued /\ ust_issue caller a u w n w2.
Proof.
  unfold mint_unstake_tokens. intros H Hs. apply rbind_ok in H as [x [E H]]. rstep E.
  split; [done|]. clear E x.
  destruct (w_un w !! u) as [m|] eqn:Eu.
  - (* more *)
    unfold nft_add in H. destruct (0 <? ubal w m SELF) eqn:B; [|done]. rstep H.
    unfold send_ust in Hs. apply rbind_ok in Hs as [m' [E Hs]]. rstep Hs.
    cbn in E. unfold credit in E. apply credit_debit_ust in E as ->.
    assert (0 < ubal w n SELF) as Hp by lia. exact (ui_more caller a u w n Eu Hp).
  - cbn in H. apply rbind_ok in H as [w3 [E H]]. rstep H.
    destruct (1 <? w_last w + 1) eqn:B; cbn in E.
    + unfold clean_old_unbond_epochs in E. apply rbind_ok in E as [[e0 u0] [E1 E]].
      unfold token_attributes in E1. cbn in E1. unfold ubal in E1. cbn in E1.
      replace (w_last w + 1 - 1) with (w_last w) in * by lia.
      rewrite lookup_insert_ne in E1 by lia. unfold credit in E1.
      rewrite amt_insert, decide_False in E1 by (intros [=]; lia).
      destruct (0 <? amt_at (w_ust w) (w_last w, SELF)) eqn:B1; [|done].
      destruct (w_attr w !! w_last w) as [[e1 u1]|] eqn:Ea; [|done]. rstep E1. simplify_eq.
      destruct (e0 <? w_epoch w) eqn:B2.
      * cbn in E. unfold nft_burn in E. apply rbind_ok in E as [m' [E1 E]]. rstep E1. rstep E.
        unfold send_ust in Hs. apply rbind_ok in Hs as [m'' [E2 Hs]]. rstep Hs. cbn in E2.
        unfold ubal in E2; cbn in E2. rewrite N.sub_diag in E2. unfold credit in E2.
        rewrite insert_commute in E2 by (intros [=]; lia).
        replace (amt_at (w_ust w) (w_last w + 1, SELF) + (a + 1)) with
          (amt_at (w_ust w) (w_last w + 1, SELF) + 1 + a) in E2 by lia.
        apply credit_debit_ust in E2 as ->.
        refine (ui_clean caller a u w e0 u0 _ _ _ _ _); try done; unfold ubal; lia.
      * rstep E. unfold send_ust in Hs. apply rbind_ok in Hs as [m'' [E2 Hs]]. rstep Hs. cbn in E2.
        unfold credit in E2.
        replace (amt_at (w_ust w) (w_last w + 1, SELF) + (a + 1)) with
          (amt_at (w_ust w) (w_last w + 1, SELF) + 1 + a) in E2 by lia.
        apply credit_debit_ust in E2 as ->.
        refine (ui_new caller a u w e0 u0 _ _ _ _ _); try done; unfold ubal; lia.
    + rstep E. unfold send_ust in Hs. apply rbind_ok in Hs as [m'' [E2 Hs]]. rstep Hs. cbn in E2.
      unfold credit in E2. assert (w_last w = 0) as El by lia. rewrite El in *.
      change (0 + 1) with 1 in *. rewrite (N.add_comm a 1), N.add_assoc in E2.
      apply credit_debit_ust in E2 as ->.
      refine (ui_first caller a u w _ _); done.
Qed.

(** * unDelegate *)
Definition egld_paid (to a : N) (w : world) : world :=
  if 0 <? a then emit (XEgld to a) (set_egld (w_egld w - a) w) else w.

Definition undelegate_pool (x : N) (c : pool) : pool :=
  let e := redeemed x c in
  let s := split_of (pend c) e in
  Pool (supply c - x) (reserve c - e) (fees_res c) (withdrawn c) (pend c - fst s)
    (pfu c + snd s) (pfb c).

Lemma ust_issue_epoch caller a u w n w' : ust_issue caller a u w n w' -> w_epoch w' = w_epoch w.
Proof. by destruct 1. Qed.

Inductive ust_maybe (caller r : N) (w : world) : world -> Prop :=
| um_none : r = 0 -> ust_maybe caller r w w
| um_some n w' :
    0 < r -> c_usttok (w_cfg w) = TIssued ->
    ust_issue caller r (add64 (w_epoch w) (c_unbond (w_cfg w))) w n w' ->
    ust_maybe caller r w w'.

Lemma un_delegate_inv caller pays w w' :
  un_delegate caller pays w = Ok w' ->
  exists x, pays = [Pay TokLs x] /\
  let c := w_pool w in let e := redeemed x c in
  let i := fst (split_of (pend c) e) in let r := snd (split_of (pend c) e) in
  c_lstok (w_cfg w) = TIssued /\ c_active (w_cfg w) = true
  /\ 0 < x <= supply c /\ 0 < e <= reserve c /\ x <= lbal w SELF /\ i <= w_egld w
  /\ (r = 0 \/ MIN_EGLD <= pfu c + r)
  /\ exists w3,
      ust_maybe caller r (egld_paid caller i (set_ls (<[SELF := lbal w SELF - x]> (w_ls w)) w)) w3
      /\ w' = commit (undelegate_pool x c)
              (emit (EvRemove e caller (undelegate_pool x c) (w_epoch w)) w3).
Proof.
  pose proof MIN_pos as HM.
  unfold un_delegate. intros H. apply rbind_ok in H as [c [E H]]. rstep E.
  destruct pays as [|[t x] [|]]; try discriminate H. cbn [y_tok y_amt] in H.
  apply rbind_ok in H as [[] [E1 H]]. rstep E1.
  apply rbind_ok in H as [[] [E2 H]]. rstep E2. destruct t; try discriminate E2.
  apply rbind_ok in H as [[] [E3 H]]. rstep E3.
  apply rbind_ok in H as [[e c1] [E4 H]].
  apply pool_remove_inv in E4 as (-> & He & Hx & Hs & Hr & ->).
  apply rbind_ok in H as [w1 [E5 H]]. unfold burn_ls in E5. rstep E5.
  rewrite action_eq in H. simpl rbind in H. cbn [pend pool_minus set_reserve set_supply] in H.
  pose proof (split_facts (pend (w_pool w)) (redeemed x (w_pool w))) as Hf.
  destruct (split_of (pend (w_pool w)) (redeemed x (w_pool w))) as [i r] eqn:Es. simpl in Hf.
  destruct Hf as (Hir & Hi & Hl & _).
  apply rbind_ok in H as [[c2 w2] [E6 H]]. rstep H.
  unfold process_un_delegation in E6.
  apply rbind_ok in E6 as [[c3 w3] [E7 E6]].
  apply rbind_ok in E6 as [[c4 w4] [E8 E6]]. rstep E6.
  exists x. split; [done|]. cbn zeta. rewrite Es. cbn [fst snd].
  assert (H7 : i <= w_egld w /\
    w3 = egld_paid caller i (set_ls (<[SELF := lbal w SELF - x]> (w_ls w)) w) /\
    c3 = Pool (supply (w_pool w) - x) (reserve (w_pool w) - redeemed x (w_pool w))
          (fees_res (w_pool w)) (withdrawn (w_pool w)) (pend (w_pool w) - i)
          (pfu (w_pool w)) (pfb (w_pool w))).
  { unfold process_instant_redemption in E7. unfold egld_paid.
    destruct (0 <? i) eqn:B.
    - apply rbind_ok in E7 as [p [E9 E7]]. rstep E9.
      apply rbind_ok in E7 as [[] [E9' E7]]. apply rbind_ok in E7 as [w5 [E10 E7]].
      unfold send_egld in E10. apply rbind_ok in E10 as [w6 [E11 E10]]. rstep E11. rstep E10. rstep E7.
      cbn in *. split_and!; try done.
    - rstep E7. split_and!; [lia|done|]. unfold pool_minus, set_reserve, set_supply; cbn. f_equal; lia. }
  destruct H7 as (Hie & -> & ->).
  assert (H8 : (r = 0 \/ MIN_EGLD <= pfu (w_pool w) + r) /\
    ust_maybe caller r (egld_paid caller i (set_ls (<[SELF := lbal w SELF - x]> (w_ls w)) w)) w4 /\
    c2 = Pool (supply (w_pool w) - x) (reserve (w_pool w) - redeemed x (w_pool w))
          (fees_res (w_pool w)) (withdrawn (w_pool w)) (pend (w_pool w) - i)
          (pfu (w_pool w) + r) (pfb (w_pool w))).
  { unfold undelegate_amount in E8. destruct (0 <? r) eqn:B.
    - apply rbind_ok in E8 as [[] [E9 E8]]. rstep E9.
      apply rbind_ok in E8 as [[n w5] [E10 E8]]. apply rbind_ok in E8 as [w6 [E11 E8]]. rstep E8.
      destruct (issue_inv _ _ _ _ _ _ _ E10 E11) as [Ht Hi'].
      cbn in *. split_and!; try done; [lia|]. eapply um_some; try done; lia.
    - rstep E8. split_and!; [lia|apply um_none; lia|simpl; f_equal; lia]. }
  destruct H8 as (Hp & Hm & ->).
  unfold lbal in *. split_and!; try done; [lia|].
  exists w4. split; [done|]. unfold undelegate_pool. rewrite Es. cbn [fst snd].
  replace (w_epoch w4) with (w_epoch w).
  - rewrite (N.add_comm r i), Hir. done.
  - destruct Hm as [|? ? ? ? Hu]; [|rewrite (ust_issue_epoch _ _ _ _ _ _ Hu)];
      unfold egld_paid; destruct (0 <? i); done.
Qed.

(** * withdraw *)
(** what a list of payments carries: unstake tokens of nonce [n], all of them, LS tokens *)
Definition ust_in (n : N) (p : pay) : N :=
  match y_tok p with TokUst m => if m =? n then y_amt p else 0 | _ => 0 end.
Definition ust_paid (n : N) (l : list pay) : N := sumN (map (ust_in n) l).
Definition any_ust (p : pay) : N := match y_tok p with TokUst _ => y_amt p | _ => 0 end.
Definition any_ls (p : pay) : N := match y_tok p with TokLs => y_amt p | _ => 0 end.
Definition amounts (l : list pay) : N := sumN (map y_amt l).

Definition matured (w : world) (p : pay) : Prop :=
  exists n e u, y_tok p = TokUst n /\ 0 < y_amt p /\ w_attr w !! n = Some (e, u) /\ u <= w_epoch w.

(** the part handed back: [None] if the pot covers everything *)
Definition given_back (pays : list pay) (pot : N) : option (N * N) :=
  if amounts pays <=? pot then None
  else match list.last pays with
       | Some (Pay (TokUst n) _) => Some (n, amounts pays - pot)
       | _ => None
       end.
Definition back_of (g : option (N * N)) (n : N) : N :=
  match g with Some (m, a) => if m =? n then a else 0 | None => 0 end.
Definition back_total (g : option (N * N)) : N := match g with Some (_, a) => a | None => 0 end.
Definition back_log (caller : N) (g : option (N * N)) : list eff :=
  match g with Some (m, a) => [XUst caller m a] | None => [] end.

Definition users_ust (m : gmap (N * N) N) : N :=
  gsum (fun k v => if snd k =? SELF then 0 else v) m.

Definition wl_post (caller : N) (pays : list pay) (pot : N) (U U' : gmap (N * N) N) : Prop :=
  let g := given_back pays pot in
  (forall n, amt_at U' (n, SELF) + ust_paid n pays = amt_at U (n, SELF))
  /\ (forall n, amt_at U' (n, caller) = amt_at U (n, caller) + back_of g n)
  /\ (forall n a, a <> SELF -> a <> caller -> amt_at U' (n, a) = amt_at U (n, a))
  /\ users_ust U' = users_ust U + back_total g.

Lemma users_self (m : gmap (N * N) N) n v : users_ust (<[(n, SELF) := v]> m) = users_ust m.
Proof. pose proof (gsum_users m n SELF v) as H. rewrite N.eqb_refl in H. unfold users_ust. lia. Qed.

Lemma users_other (m : gmap (N * N) N) n a v :
  a <> SELF -> users_ust (<[(n, a) := v]> m) + amt_at m (n, a) = users_ust m + v.
Proof.
  intros Ha. pose proof (gsum_users m n a v) as H. apply N.eqb_neq in Ha. rewrite Ha in H.
  unfold users_ust. lia.
Qed.

Lemma withdraw_loop_inv caller pays c w s c' w' s' :
  caller <> SELF ->
  withdraw_loop caller pays c w s = Ok (c', w', s') ->
  Forall (matured w) pays
  /\ s' = s + N.min (amounts pays) (withdrawn c)
  /\ c' = set_withdrawn (withdrawn c - amounts pays) c
  /\ (pays = [] \/ amounts (removelast pays) < withdrawn c)
  /\ exists U', wl_post caller pays (withdrawn c) (w_ust w) U'
     /\ w' = set_log (w_log w ++ back_log caller (given_back pays (withdrawn c))) (set_ust U' w).
Proof.
  intros Hc. revert c w s. induction pays as [|[t a] r IH]; intros c w s H.
  - cbn in H. injection H as <- <- <-.
    split_and!; [by constructor| |destruct c; unfold set_withdrawn; cbn; f_equal; lia|by left|].
    { unfold amounts; simpl; lia. }
    exists (w_ust w). unfold wl_post, given_back, amounts, ust_paid. cbn.
    destruct (0 <=? withdrawn c) eqn:B; [|lia]. cbn. rewrite app_nil_r. split.
    + split_and!; try done; intros; lia.
    + by destruct w.
  - cbn [withdraw_loop y_tok y_amt] in H. destruct t as [|n|]; try discriminate H.
    apply rbind_ok in H as [[] [E1 H]]. rstep E1.
    apply rbind_ok in H as [[e u] [E2 H]]. apply rbind_ok in H as [[] [E3 H]]. rstep E3.
    unfold token_attributes in E2. destruct (0 <? ubal w n SELF) eqn:B0; [|discriminate E2].
    destruct (w_attr w !! n) as [[e' u']|] eqn:Ea; [|discriminate E2]. injection E2 as -> ->.
    assert (Hmat : matured w (Pay (TokUst n) a)).
    { exists n, e, u. cbn. split_and!; try done; lia. }
    assert (Hcall : forall k, (k, caller) <> (k, SELF)) by (intros k [=]; done).
    destruct (a <=? withdrawn c) eqn:B1.
    + apply rbind_ok in H as [w1 [E4 H]]. unfold burn_unstake_tokens, nft_burn in E4. rstep E4.
      apply rbind_ok in H as [t [E5 H]]. rstep E5.
      apply IH in H as (HF & -> & -> & Hr & U' & HU & ->). cbn in Hr.
      split_and!.
      * constructor; [done|]. exact HF.
      * unfold amounts; simpl. fold (amounts r). cbn. lia.
      * unfold set_withdrawn, amounts; cbn. f_equal. lia.
      * right. destruct r as [|p r']; [unfold amounts; cbn; lia|].
        destruct Hr as [Hr|Hr]; [discriminate Hr|].
        change (removelast (Pay (TokUst n) a :: p :: r')) with (Pay (TokUst n) a :: removelast (p :: r')).
        unfold amounts in *. cbn [map sumN y_amt]. lia.
      * assert (Hg : given_back (Pay (TokUst n) a :: r) (withdrawn c) = given_back r (withdrawn c - a)).
        { unfold given_back, amounts. cbn [map sumN y_amt].
          destruct (sumN (map y_amt r) <=? withdrawn c - a) eqn:B2;
            destruct (a + sumN (map y_amt r) <=? withdrawn c) eqn:B3; try lia; [done|].
          destruct r as [|p r']; [cbn in B2; lia|]. change (list.last (Pay (TokUst n) a :: p :: r')) with (list.last (p :: r')).
          destruct (list.last (p :: r')) as [[[|m|] y]|]; try done.
          do 2 f_equal. lia. }
        exists U'. rewrite Hg. unfold wl_post in *. cbn in HU. destruct HU as (H1 & H2 & H3 & H4).
        rewrite Hg. split; [|done]. split_and!.
        -- intros k. specialize (H1 k). rewrite amt_insert in H1.
           unfold ust_paid in *. cbn [map sumN]. unfold ust_in at 1. cbn [y_tok y_amt].
           destruct (n =? k) eqn:Bk.
           ++ apply N.eqb_eq in Bk as ->. rewrite decide_True in H1 by done. lia.
           ++ apply N.eqb_neq in Bk. rewrite decide_False in H1 by congruence. lia.
        -- intros k. rewrite H2, amt_insert, decide_False by congruence. done.
        -- intros k b Hb1 Hb2. rewrite H3, amt_insert, decide_False by congruence. done.
        -- rewrite H4, users_self. done.
    + destruct (0 <? withdrawn c) eqn:B2; [|discriminate H].
      apply rbind_ok in H as [w1 [E4 H]]. unfold burn_unstake_tokens, nft_burn in E4. rstep E4.
      apply rbind_ok in H as [t [E5 H]]. rstep E5.
      apply rbind_ok in H as [w2 [E6 H]]. unfold send_ust in E6. rstep E6. cbn in *.
      destruct r as [|[[|m|] b] r'].
      2-4: cbn [withdraw_loop y_tok y_amt] in H; try discriminate H.
      2: { exfalso. apply rbind_ok in H as [[] [E7 H]]. rstep E7.
           apply rbind_ok in H as [[e2 u2] [E8 H]]. apply rbind_ok in H as [[] [E9 H]].
           cbn in H. destruct (b <=? 0) eqn:Bb; [lia|].
           change (0 <? 0) with false in H. discriminate H. }
      cbn in H. injection H as <- <- <-.
      rewrite amt_insert, decide_True in E0 by done.
      split_and!.
      * by constructor.
      * unfold amounts; cbn. lia.
      * unfold set_withdrawn, amounts; cbn. f_equal. lia.
      * right. unfold amounts; cbn. lia.
      * assert (Hg : given_back [Pay (TokUst n) a] (withdrawn c) = Some (n, a - withdrawn c)).
        { unfold given_back, amounts. cbn. destruct (a + 0 <=? withdrawn c) eqn:B3; [lia|].
          do 2 f_equal. lia. }
        rewrite Hg. cbn. eexists. split; [|done].
        unfold wl_post. rewrite Hg. unfold credit.
        repeat rewrite !insert_insert. cbn.
        split_and!.
        -- intros k. unfold ust_paid; cbn. unfold ust_in; cbn.
           destruct (N.eqb_spec n k) as [->|Hk]; rewrite ?amt_insert; repeat case_decide; simplify_eq; lia.
        -- intros k.
           destruct (N.eqb_spec n k) as [->|Hk]; rewrite ?amt_insert; repeat case_decide; simplify_eq; lia.
        -- intros k b Hb1 Hb2.
           rewrite ?amt_insert; repeat case_decide; simplify_eq; lia.
        -- rewrite (amt_insert _ _ (n, caller)), decide_False by congruence.
           match goal with |- users_ust (<[_ := ?v]> ?M) = _ =>
             pose proof (users_other M n caller v Hc) as Hu end.
           rewrite (amt_insert _ _ (n, caller)), decide_False in Hu by congruence.
           rewrite !users_self in Hu. lia.
Qed.
