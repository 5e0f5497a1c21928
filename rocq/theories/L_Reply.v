(** L_Reply.v — exactly when a reply is booked. *)
From Verif Require Export L_Accept L_Find.

Lemma cb_ok w i k r :
  nth_error (w_res w) i = Some (k, r) ->
  snd (step w (OCb i)) = SOk <-> isok (callback k r (recv (attached k r) (set_res (drop_nth i (w_res w)) (set_log [] w)))).
Proof.
  intros Hn. cb_step Hn. change (w_res (set_log [] w)) with (w_res w).
  match goal with |- context [callback k r ?x] => change x with (recv (attached k r) (set_res (drop_nth i (w_res w)) (set_log [] w))) end.
  destruct (callback k r _); cbn; rewrite ?ok_ok, ?ok_er; split; done.
Qed.

Lemma withd_iff w i c v :
  Reachable w -> nth_error (w_res w) i = Some (KWithd c, RDone v) ->
  snd (step w (OCb i)) = SOk <-> v <= p_unstaked (rec w c).
Proof.
  intros Hr Hn. pose proof (res_unanswered _ _ _ _ Hn) as Hk. pose proof (fly_issued _ _ Hr Hk eq_refl) as HI.
  rewrite (cb_ok _ _ _ _ Hn). cbn [callback attached]. unfold withdraw_tokens_callback. destruct (0 <? v) eqn:B.
  2: { rewrite ok_ok. split; [|done]. intros _. lia. }
  rewrite ok_cache. cbn.
  pose proof (f_pfb _ _ _ _ (flow w Hr)) as Hf.
  rewrite ok_bind. split.
  - intros [_ (x & E & H)]. rewrite ok_bind in H. destruct H as (w1 & E1 & _). unfold upd_prov, get_prov in E1. cbn in E1.
    unfold rec. destruct (w_pv w !! c) as [p|]; cbn in *; [|discriminate E1].
    unfold sub in E1. destruct (v <=? p_unstaked p) eqn:B1; [lia|discriminate E1].
  - intros Hv. split; [done|]. unfold rec in Hv. destruct (w_pv w !! c) as [p|] eqn:Hp; cbn in Hv; [|lia].
    assert (p_unstaked p <= pfb (w_pool w)).
    { rewrite Hf. pose proof (gat_le (fun _ => p_unstaked) (w_pv w) c) as G. unfold gat in G. rewrite Hp in G. exact G. }
    exists (pfb (w_pool w) - v). split; [apply L_Batch.sub_ok; lia|].
    rewrite ok_bind. unfold upd_prov, get_prov. cbn. rewrite Hp. cbn. rewrite L_Batch.sub_ok by done. cbn.
    eexists. split; [reflexivity|]. by rewrite ok_ok.
Qed.

Lemma white_iff w i c a u r :
  Reachable w -> nth_error (w_res w) i = Some (KWhite c a u, r) ->
  snd (step w (OCb i)) = SOk <-> c_lstok (w_cfg w) = TIssued /\ (r = RFail \/ 0 < ls_worth w a).
Proof.
  intros Hr Hn. split.
  - intros Hs. rewrite (cb_ok _ _ _ _ Hn) in Hs. cbn [callback attached] in Hs. unfold whitelist_callback in Hs.
    rewrite ok_cache in Hs. destruct Hs as [HI Hs]. split; [exact HI|]. destruct r as [|v]; [by left|right].
    cbn [is_done] in Hs. rewrite ok_bind in Hs. destruct Hs as (w1 & E & Hs).
    rewrite ok_add in Hs. rewrite ls_worth_minted. apply Hs.
  - intros [HI H]. destruct r as [|v]; [apply (cb_white_failed w i c a u HI Hn)|]. destruct H as [|H]; [done|].
    destruct (white_worth w i c a u v Hr Hn HI H) as [K _]. exact K.
Qed.

Lemma issue_iff w i ls u a r :
  nth_error (w_res w) i = Some (KIssue ls u a, r) -> snd (step w (OCb i)) = SOk.
Proof.
  intros Hn. rewrite (cb_ok _ _ _ _ Hn). cbn [callback]. unfold issue_callback. destruct r; cbn [is_done attached].
  - destruct (0 <? a); [|apply ok_ok; done]. unfold send_egld. rewrite ok_take, ok_ok. split; [cbn; lia|done].
  - by apply ok_ok.
Qed.

Lemma reply_iff w i k r :
  Reachable w -> nth_error (w_res w) i = Some (k, r) ->
  snd (step w (OCb i)) = SOk <-> bookable w k r.
Proof.
  intros Hr Hn. destruct k as [c a|c a|c|l|c a u|ls u a]; cbn [bookable].
  - split; [by destruct r|]. intros _. destruct r; [apply (cb_deleg_failed _ _ _ _ Hr Hn)|apply (cb_deleg_ok _ _ _ _ _ Hr Hn)].
  - destruct r as [|v].
    + split; [done|]. intros _. apply (cb_undel_failed _ _ _ _ Hr Hn).
    + destruct (cb_undel_ok _ _ _ _ _ Hr Hn) as (p & Hp & _ & H & _). unfold rec. rewrite Hp. exact H.
  - destruct r as [|v]; [|by apply withd_iff with (i := i)]. split; [done|]. intros _.
    rewrite (cb_withd_empty _ _ _ _ Hn); [done|by left].
  - destruct r as [|v]; [|by apply reward_iff with (l := l)]. split; [done|]. intros _. by rewrite (cb_claim_none _ _ _ Hn).
  - rewrite (white_iff _ _ _ _ _ _ Hr Hn). destruct r; intuition discriminate.
  - split; [by destruct r|]. intros _. by apply issue_iff in Hn.
Qed.

(** a reply is always delivered *)
Lemma reply_status w i k r :
  Reachable w -> nth_error (w_res w) i = Some (k, r) -> ~ bookable w k r ->
  exists e, snd (step w (OCb i)) = SCbFail e
    /\ fst (step w (OCb i)) = set_egld (w_egld w + attached k r) (set_res (drop_nth i (w_res w)) (set_log [] w)).
Proof.
  intros Hr Hn Hb. rewrite <- (reply_iff w i k r Hr Hn) in Hb. revert Hb. cb_step Hn.
  match goal with |- context [callback k r ?x] => destruct (callback k r x) as [y|e] end; [done|].
  intros _. exists e. done.
Qed.
