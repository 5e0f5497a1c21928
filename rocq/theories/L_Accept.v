(** L_Accept.v — exactly when each transaction is accepted. *)
From Verif Require Export L_Iff L_Wd L_More L_Worth.

Definition isok {A} (r : res A) : Prop := exists x, r = Ok x.

Lemma ok_ok {A} (a : A) : isok (Ok a) <-> True. Proof. split; [done|]. by exists a. Qed.
Lemma ok_er {A} e : isok (@Er A e) <-> False. Proof. split; [|done]. by intros [x H]. Qed.
Lemma ok_bind {A B} (x : res A) (f : A -> res B) : isok (rbind x f) <-> exists a, x = Ok a /\ isok (f a).
Proof.
  destruct x as [a|e]; cbn.
  - split; [by exists a|]. intros (b & [= ->] & H). done.
  - rewrite ok_er. split; [done|]. by intros (b & H & _).
Qed.
Lemma ok_require {B} b e (k : unit -> res B) : isok (rbind (require b e) k) <-> b = true /\ isok (k tt).
Proof. destruct b; cbn; [tauto|]. rewrite ok_er. intuition discriminate. Qed.
Lemma ok_require1 b e : isok (require b e) <-> b = true.
Proof. destruct b; cbn; [rewrite ok_ok; done|]. rewrite ok_er. intuition discriminate. Qed.
Lemma ok_manager {B} u w (k : unit -> res B) : isok (rbind (is_manager u w) k) <-> manages u w /\ isok (k tt).
Proof. unfold is_manager. rewrite ok_require, manager_iff. done. Qed.
Lemma ok_owner {B} u w (k : unit -> res B) : isok (rbind (only_owner u w) k) <-> u = w_owner w /\ isok (k tt).
Proof. unfold only_owner. rewrite ok_require, N.eqb_eq. done. Qed.
Lemma ok_active {B} w (k : unit -> res B) : isok (rbind (is_state_active w) k) <-> c_active (w_cfg w) = true /\ isok (k tt).
Proof. unfold is_state_active. rewrite ok_require. done. Qed.
Lemma ok_cache {B} w (k : pool -> res B) : isok (rbind (cache_new w) k) <-> c_lstok (w_cfg w) = TIssued /\ isok (k (w_pool w)).
Proof.
  unfold cache_new, ls_token_id. destruct (c_lstok (w_cfg w)); cbn; try (rewrite ok_er; intuition discriminate). tauto.
Qed.
Lemma ok_take {B} a w (k : world -> res B) :
  isok (rbind (take_egld a w) k) <-> a <= w_egld w /\ isok (k (set_egld (w_egld w - a) w)).
Proof. unfold take_egld. destruct (a <=? w_egld w) eqn:E; cbn; [|rewrite ok_er]; intuition lia. Qed.
Lemma ok_register k a w : isok (register k a w) <-> a <= w_egld w.
Proof. unfold register. rewrite ok_take, ok_ok. tauto. Qed.
Lemma ok_registered {B} k a w (f : world -> res B) :
  isok (rbind (register k a w) (fun w => f w)) <-> a <= w_egld w /\ isok (f (emit (XCall k) (set_calls (w_calls w ++ [k]) (set_egld (w_egld w - a) w)))).
Proof. unfold register, take_egld. destruct (a <=? w_egld w) eqn:E; cbn; [|rewrite ok_er]; intuition lia. Qed.
Lemma ok_owner_set u f w : isok (owner_set u f w) <-> u = w_owner w.
Proof. unfold owner_set. rewrite ok_owner, ok_ok. tauto. Qed.
Lemma ok_upd c f w : isok (upd_prov c (fun p => Ok (f p)) w) <-> is_Some (w_pv w !! c).
Proof.
  unfold upd_prov, get_prov. destruct (w_pv w !! c); cbn.
  - rewrite ok_ok. split; [by eexists|done].
  - rewrite ok_er. split; [done|]. by intros [? ?].
Qed.
Lemma ok_prov {B} pv c (k : prov -> res B) : isok (rbind (get_prov pv c) k) <-> exists p, pv !! c = Some p /\ isok (k p).
Proof.
  unfold get_prov. destruct (pv !! c) as [p|]; cbn.
  - split; [by exists p|]. intros (q & [= ->] & H). done.
  - rewrite ok_er. split; [done|]. by intros (q & ? & _).
Qed.
Lemma ok_migr {B} u w (k : unit -> res B) :
  isok (rbind (migration_caller u w) k) <-> (c_migr (w_cfg w) = Some u /\ u <> 0 /\ is_smart_contract u = true) /\ isok (k tt).
Proof.
  unfold migration_caller. destruct (c_migr (w_cfg w)) as [m|]; cbn.
  - destruct (N.eqb_spec m 0) as [->|Hm]; cbn.
    { rewrite ok_er. split; [done|]. intros [([= <-] & ? & _) _]. done. }
    destruct (N.eqb_spec u m) as [->|Hu]; cbn.
    2: { rewrite ok_er. split; [done|]. intros [([= <-] & ? & _) _]. done. }
    destruct (is_smart_contract m); cbn; [tauto|]. rewrite ok_er. intuition discriminate.
  - rewrite ok_er. intuition discriminate.
Qed.

(** the payment in front of the endpoint *)
Lemma step_ok w u eg pays ep :
  snd (step w (OTx u eg pays ep)) = SOk <-> isok (exec_tx u eg pays ep (set_log [] w)).
Proof.
  unfold step. destruct (exec_tx u eg pays ep (set_log [] w)) as [x|e]; cbn.
  - rewrite ok_ok. done.
  - rewrite ok_er. split; discriminate || done.
Qed.

Lemma pay_in_nil u w : pay_in u [] w = Ok w. Proof. done. Qed.

Lemma not_any_ok u eg pays ep w :
  payable_of ep <> PayAny ->
  isok (exec_tx u eg pays ep w)
  <-> u <> SELF /\ pays = [] /\ (payable_of ep = PayNone -> eg = 0) /\ args_ok ep = true
      /\ isok (run_endpoint ep u eg [] (recv eg w)).
Proof.
  intros Hp. unfold exec_tx. rewrite ok_require, ok_bind. split.
  - intros [Hu (w1 & Hin & H)]. assert (u <> SELF) by (intros ->; by rewrite N.eqb_refl in Hu). split; [done|].
    rewrite ok_bind in H. destruct H as ([] & E & H). rewrite ok_require in H. destruct H as [Ha H].
    unfold payment_ok in E. apply rbind_ok in E as ([] & _ & E).
    assert (pays = []) as ->.
    { destruct pays; [done|]. cbn in E. destruct (payable_of ep); try done.
      rewrite andb_false_r in E. discriminate E. }
    split; [done|]. cbn in Hin. injection Hin as <-. split; [|by split].
    intros Hn. rewrite Hn in E. apply require_ok in E. rewrite andb_true_r in E. lia.
  - intros (Hu & -> & He & Ha & H). split; [by destruct (N.eqb_spec u SELF)|].
    exists w. split; [done|]. rewrite ok_bind. exists tt. split.
    + unfold payment_ok. rewrite orb_true_r. cbn. destruct (payable_of ep); try done.
      rewrite He by done. done.
    + rewrite ok_require. done.
Qed.

Lemma ok_mint_send {B} u m w (k : world -> res B) e :
  isok (rbind (send_ls u m (emit e (mint_ls m w))) k) <-> isok (k (emit (XLs u m) (set_ls (credit (<[SELF := lbal w SELF]> (w_ls w)) u m) (emit e w)))).
Proof. change (emit e (mint_ls m w)) with (mint_ls m (emit e w)). rewrite mint_send_ls_ok. done. Qed.

Lemma ok_add {B} a c (k : N * pool -> res B) :
  isok (rbind (pool_add_liquidity a c) k) <-> 0 < minted a c /\ isok (k (minted a c, pool_plus a c)).
Proof.
  destruct (decide (0 < minted a c)) as [H|H].
  - unfold pool_add_liquidity. rewrite get_ls_amount_ok by done. cbn. tauto.
  - split; [|tauto]. rewrite ok_bind. intros ([m c'] & E & K). apply pool_add_inv in E as (-> & Hm & ->). done.
Qed.

Lemma placeable_split a q other : 0 < a -> (snd (split_of q a) = 0 \/ MIN_EGLD <= other + snd (split_of q a)) <-> placeable a q other.
Proof.
  intros Ha. unfold placeable, closes, split_of. change ONE_EGLD with MIN_EGLD. pose proof MIN_pos.
  bsplit; cbn; lia.
Qed.
Lemma closes_split a q : 0 < a -> snd (split_of q a) = 0 <-> closes a q.
Proof.
  intros Ha. unfold closes, split_of. change ONE_EGLD with MIN_EGLD. pose proof MIN_pos.
  bsplit; cbn; lia.
Qed.

(** * The user endpoints *)
Lemma delegate_ok2 caller a w :
  let c := w_pool w in let r := snd (split_of (pfu c) a) in
  c_lstok (w_cfg w) = TIssued -> c_active (w_cfg w) = true -> 0 < a -> 0 < minted a c ->
  r = 0 \/ MIN_EGLD <= pend c + r -> isok (delegate caller a w).
Proof.
  cbv zeta. intros H1 H2 H3 H4 Hr. pose proof MIN_pos as HM.
  unfold delegate, cache_new, ls_token_id, is_state_active. rewrite H1, H2. cbn [require rbind].
  destruct (0 <? a) eqn:B; [|lia]. cbn [require rbind]. rewrite action_eq. cbn [rbind].
  pose proof (split_facts (pfu (w_pool w)) a) as Hs. cbv zeta in Hs.
  destruct (split_of (pfu (w_pool w)) a) as [i r] eqn:Es. cbn [fst snd] in Hs, Hr.
  destruct Hs as (Ha & Hi & Hq & _).
  unfold process_delegation.
  assert (E1 : (if 0 <? i then decrease_pending_egld i 0 (w_pool w) else Ok (w_pool w, 0))
    = Ok (Pool (supply (w_pool w)) (reserve (w_pool w)) (fees_res (w_pool w)) (withdrawn (w_pool w) + i)
           (pend (w_pool w)) (pfu (w_pool w) - i) (pfb (w_pool w)), i)).
  { destruct (0 <? i) eqn:Bi.
    - unfold decrease_pending_egld. rewrite sub_le by done. cbn.
      destruct ((MIN_EGLD <=? pfu (w_pool w) - i) || (pfu (w_pool w) - i =? 0)) eqn:Bq; [done|].
      apply orb_false_iff in Bq. lia.
    - assert (i = 0) as -> by lia. rewrite N.add_0_r, N.sub_0_r. by destruct (w_pool w). }
  rewrite E1. cbn [rbind].
  match goal with |- context [increase_pending_egld r i ?P] =>
    assert (E2 : (if 0 <? r then increase_pending_egld r i P else Ok (P, i))
      = Ok (Pool (supply (w_pool w)) (reserve (w_pool w)) (fees_res (w_pool w)) (withdrawn (w_pool w) + i)
           (pend (w_pool w) + r) (pfu (w_pool w) - i) (pfb (w_pool w)), i + r)) end.
  { destruct (0 <? r) eqn:Br.
    - unfold increase_pending_egld. cbn.
      destruct (MIN_EGLD <=? pend (w_pool w) + r) eqn:Bq; [done|lia].
    - assert (r = 0) as -> by lia. rewrite !N.add_0_r. done. }
  rewrite E2. cbn [rbind]. rewrite Ha, B.
  unfold pool_add_liquidity. rewrite get_ls_amount_ok by exact H4. cbn [rbind].
  rewrite mint_send_ls_ok. cbn. eexists. reflexivity.
Qed.

Lemma delegate_iff caller a w :
  isok (delegate caller a w)
  <-> 0 < a /\ c_lstok (w_cfg w) = TIssued /\ c_active (w_cfg w) = true /\ 0 < minted a (w_pool w)
      /\ placeable a (pfu (w_pool w)) (pend (w_pool w)).
Proof.
  split.
  - intros [w' H]. apply delegate_inv in H as (H1 & H2 & H3 & H4 & H5 & _). apply placeable_split in H5; [|done]. done.
  - intros (H3 & H1 & H2 & H4 & H5). apply placeable_split in H5; [|done]. by apply delegate_ok2.
Qed.

Lemma undelegate_iff w u eg pays :
  Reachable w ->
  snd (step w (OTx u eg pays UnDelegate)) = SOk
  <-> u <> SELF /\ exists x, pays = [Pay TokLs x] /\ eg = 0 /\ c_lstok (w_cfg w) = TIssued /\ c_active (w_cfg w) = true
      /\ 0 < x /\ x <= ls_balance u w /\ 0 < egld_worth w x
      /\ placeable (egld_worth w x) (pending_egld w) (unstake_queue w)
      /\ (closes (egld_worth w x) (pending_egld w) \/ c_usttok (w_cfg w) = TIssued).
Proof.
  intros Hr. split.
  - intros Hs. did_of w (OTx u eg pays UnDelegate) Hs. split; [done|]. exists x.
    subst_pools. cbn in *.
    change (redeemed x (w_pool w)) with (egld_worth w x) in *.
    split_and!; try done.
    + by apply placeable_split.
    + match goal with H : ust_maybe _ _ _ _ |- _ => destruct H as [K|k w2 K1 K2 K3] end.
      * left. apply closes_split; [done|exact K].
      * right. rewrite egld_paid_eq in K2. exact K2.
  - intros (Hu & x & -> & -> & H1 & H2 & H3 & H4 & H5 & H6 & H7).
    pose proof (held_le_supply w u Hr) as Hle. pose proof (acct w Hr) as [HA1 HA2 HA3].
    unfold step, exec_tx. destruct (N.eqb_spec u SELF) as [|_]; [done|]. cbn [negb require rbind pay_in y_tok y_amt].
    cbn [w_ls set_log]. rewrite debit_le by exact H4. cbn [rbind].
    unfold payment_ok. cbn [payable_of N.eqb orb require rbind run_endpoint args_ok].
    match goal with |- context [un_delegate u _ ?x] => set (v := x) end.
    destruct (un_delegate_ok u x v) as [w' E]; [exact H1|exact H2|exact H3|unfold v, ls_supply in *; cbn; lia|exact H5| | | |].
    + unfold v, lbal. cbn. rewrite amt_credit, decide_True by done. lia.
    + unfold v. cbn. lia.
    + unfold v. cbn. change (redeemed x (w_pool w)) with (egld_worth w x).
      unfold pending_egld, unstake_queue in *.
      apply placeable_split in H6; [|done]. rewrite <- closes_split in H7 by done.
      destruct H7 as [H7|H7]; [by left|]. destruct H6 as [H6|H6]; [by left|]. right. split_and!; try done.
      exact (ust w Hr).
    + rewrite E. done.
Qed.

Lemma withdraw_full_iff w u eg pays :
  Reachable w ->
  snd (step w (OTx u eg pays Withdraw)) = SOk
  <-> u <> SELF /\ (eg = 0 \/ pays = []) /\ c_lstok (w_cfg w) = TIssued /\ c_active (w_cfg w) = true /\ c_usttok (w_cfg w) = TIssued
    /\ Forall (fun q => 0 < y_amt q /\ exists n r, y_tok q = TokUst n /\ release_epoch n w = Some r /\ r <= w_epoch w) pays
    /\ (forall n, pay_of_nonce n pays <= ust_of n u w)
    /\ (pays = [] \/ pay_total (removelast pays) < total_withdrawn w).
Proof.
  intros Hr. destruct (decide (pays = [])) as [->|Hp].
  - split.
    + intros Hs. did_of w (OTx u eg [] Withdraw) Hs. subst_pools. cbn in *. split_and!; try done; auto.
    + intros (Hu & _ & H1 & H2 & H3 & _). unfold step, exec_tx. destruct (N.eqb_spec u SELF) as [|_]; [done|].
      cbn [negb require rbind pay_in]. unfold payment_ok. rewrite orb_true_r. cbn [payable_of require rbind run_endpoint args_ok].
      unfold withdraw, cache_new, ls_token_id, is_state_active, unstake_token_id. cbn [w_cfg set_egld set_log]. rewrite H1, H2, H3.
      cbn [rbind require withdraw_loop]. unfold send_egld, take_egld. destruct (0 <=? _) eqn:B; [done|lia].
  - split.
    + intros Hs. assert (eg = 0) as ->.
      { did_of w (OTx u eg pays Withdraw) Hs. match goal with H : _ \/ pays = [] |- _ => destruct H; done end. }
      apply withdraw_iff in Hs; [|done]. destruct Hs as (? & ? & ? & ? & ? & ? & ?). split_and!; auto.
    + intros (Hu & [->|?] & H1 & H2 & H3 & H4 & H5 & H6); [|done]. apply withdraw_iff; [done|]. split_and!; done.
Qed.

(** * Every transaction *)
Lemma wrapped_sum a b c : ((a + b) mod U64 + c) mod U64 = (a + b + c) mod U64.
Proof. apply N.add_mod_idemp_l. done. Qed.

Lemma bits l : Forall (fun x => x < 2 ^ 64) l <-> forallb (fun x => x <? U64) l = true.
Proof.
  rewrite List.Forall_forall, forallb_forall. change (2 ^ 64) with U64. split; intros H x Hx; specialize (H x Hx); lia.
Qed.

Lemma accepted_iff w u eg pays ep :
  Reachable w ->
  (match ep with DelegatePending _ => N.of_nat (length (w_dl w)) < 2 ^ 32
   | UnDelegatePending _ => N.of_nat (length (w_ul w)) < 2 ^ 32 | _ => True end) ->
  snd (step w (OTx u eg pays ep)) = SOk <-> acceptable w u eg pays ep.
Proof.
  intros Hr Hsz. unfold acceptable. cbv zeta.
  destruct ep as [| | |o|o|c| |accumulator_ok|c admin total cap nodes apy|c admin|c total cap nodes apy elig| | | | |a|f|r|n|n|p|l|a|s|a orig| | |a];
    cbn beta iota in Hsz;
    [| | |rewrite (delegate_pending_iff w u eg pays o Hr Hsz)
     |rewrite (undelegate_pending_iff w u eg pays o Hr Hsz)|..];
    try (rewrite step_ok, not_any_ok by discriminate; cbn [run_endpoint payable_of args_ok]; change (2 ^ 64) with U64; change (2 ^ 32) with U32).
  - rewrite delegate_iff. cbn. rewrite ls_worth_minted. intuition (congruence || discriminate).
  - by apply undelegate_iff.
  - by apply withdraw_full_iff.
  - unfold deleg_possible, operator, manages. tauto.
  - unfold undel_possible, operator, manages. cbv zeta. tauto.
  - unfold withdraw_pending. rewrite ok_cache, ok_manager, ok_active, ok_require, ok_registered, ok_ok. cbn.
    assert (is_Some (w_pv w !! c) <-> (match w_pv w !! c with Some _ => true | None => false end) = true) as ->.
    { destruct (w_pv w !! c); [split; [done|by eexists]|]. split; [by intros [? ?]|done]. }
    unfold manages. cbn. intuition lia.
  - unfold claim_rewards. rewrite ok_cache, ok_manager, ok_active, ok_require, ok_registered, ok_ok. cbn. unfold manages. cbn.
    destruct (w_dl w) eqn:E; cbn; intuition (lia || discriminate).
  - unfold claim_fees, claim_fees_with. rewrite ok_cache, !ok_require, ok_take. cbn.
    pose proof (acct w Hr) as [HA1 HA2 HA3]. unfold fees_reserve.
    destruct accumulator_ok; cbn; rewrite ?ok_ok, ?ok_er.
    + destruct (N.eqb_spec (c_acc (w_cfg w)) SELF); cbn; intuition (lia || congruence).
    + intuition discriminate.
  - unfold whitelist. rewrite !ok_require, ok_manager, !ok_require, ok_register. cbn. unfold manages. cbn.
    change ONE_EGLD with MIN_EGLD.
    destruct (w_pv w !! c) eqn:E; [intuition discriminate|]. rewrite !N.leb_le, orb_true_iff, andb_true_iff, !N.ltb_lt, N.leb_le, N.eqb_eq. intuition (lia || discriminate).
  - unfold change_admin. rewrite ok_require, ok_manager, ok_upd. cbn. unfold manages. cbn.
    destruct (w_pv w !! c) eqn:E; cbn; [tauto|]. split; [intuition discriminate|]. intros (_ & _ & _ & [? ?]). discriminate.
  - unfold change_params. rewrite ok_prov. split.
    + intros (H1 & -> & H2 & H3 & p & Hp & H). rewrite !ok_require, ok_upd in H. cbn in *. destruct H as (K1 & K2 & _).
      rewrite orb_true_iff, manager_iff in K1. cbn in K1. unfold manages. split_and!; try lia; try done; try (by apply H2).
      exists p. split; [done|]. destruct K1 as [K1|K1]; [left; lia|by right].
    + intros (H1 & [-> ->] & (p & Hp & H) & H2 & H3 & H4). split_and!; try done; [lia|]. exists p. split; [done|].
      rewrite !ok_require, ok_upd. cbn. rewrite Hp, orb_true_iff, manager_iff. cbn. unfold manages in H.
      split_and!; try lia; [destruct H as [->|H]; [left; apply N.eqb_refl|by right]|by eexists].
  - unfold register_ls_token. rewrite ok_owner. cbn. destruct (c_lstok (w_cfg w)); rewrite ?ok_register, ?ok_er; cbn; intuition (lia || discriminate).
  - unfold register_unstake_token. rewrite ok_owner. cbn. destruct (c_usttok (w_cfg w)); rewrite ?ok_register, ?ok_er; cbn; intuition (lia || discriminate).
  - unfold set_state. rewrite ok_owner_set. cbn. tauto.
  - unfold set_state. rewrite ok_owner_set. cbn. tauto.
  - unfold set_accumulator. rewrite ok_owner_set. cbn. tauto.
  - unfold set_fees. rewrite ok_owner_set. cbn. tauto.
  - unfold set_minimum_rounds. rewrite ok_owner_set. cbn. intuition lia.
  - unfold set_max_addresses. rewrite ok_owner, ok_require, ok_owner_set. cbn. intuition lia.
  - unfold set_max_selected. rewrite ok_owner, ok_require, ok_owner_set. cbn. intuition lia.
  - unfold set_unbond_period. rewrite ok_owner_set. cbn. intuition lia.
  - unfold add_managers. rewrite ok_owner_set. cbn. tauto.
  - unfold remove_manager. rewrite ok_owner_set. cbn. tauto.
  - unfold set_scoring_config. rewrite ok_manager, ok_require, ok_ok, bits. cbn [forallb]. unfold add64. rewrite wrapped_sum.
    unfold manages. cbn. rewrite N.eqb_eq, andb_true_r, !andb_assoc. intuition done.
  - unfold migrate. rewrite ok_cache, ok_migr, ok_add, ok_mint_send, ok_ok. cbn. rewrite ls_worth_minted. tauto.
  - unfold migrate_pending. rewrite ok_cache, ok_migr, ok_ok. cbn. intuition discriminate.
  - unfold add_rewards. rewrite ok_cache, ok_ok. cbn. intuition discriminate.
  - unfold set_migration_sc. rewrite ok_owner, ok_require, ok_owner_set. cbn. tauto.
Qed.
