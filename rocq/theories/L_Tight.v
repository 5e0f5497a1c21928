(** L_Tight.v — the bound of C48 on the number of listed providers is reached. *)
From Verif Require Export L_Reply L_FindW L_Exit.

Definition white_op (c : addr) : op := OTx 100 E [] (Whitelist c 77 0 0 10 800).
Definition answer_ops : list op := [OExec 0 (Some 0); OCb 0].

Record St (M : N) (n : nat) (m : N) (cs : list N) (w : world) : Prop := {
  t_reach : Reachable w;
  t_tok : c_lstok (w_cfg w) = TIssued;
  t_owner : w_owner w = 100;
  t_max : c_maxaddr (w_cfg w) = M;
  t_dl : length (w_dl w) = n;
  t_ul : length (w_ul w) = n;
  t_calls : w_calls w = map (fun c => KWhite c E 100) cs;
  t_res : w_res w = [];
  t_one : ls_supply w = virtual_reserve w;
  t_fresh : forall c, m <= c -> w_pv w !! c = None
}.

Lemma st_whitelisting M n m cs w : St M n m cs w -> whitelisting w = N.of_nat (length cs).
Proof.
  intros []. unfold whitelisting, unanswered. rewrite t_calls0, t_res0. cbn [map]. rewrite app_nil_r.
  induction cs as [|c cs IH]; [done|]. clear -IH. assert (forall l, sumN (map (fun k => match k with KWhite _ _ _ => 1 | _ => 0 end) (map (fun c => KWhite c E 100) l)) = N.of_nat (length l)) as K.
  { clear. induction l as [|c l IH]; [done|]. cbn [map sumN length]. rewrite IH. lia. }
  apply K.
Qed.

Lemma st_white M n m cs w : St M n m cs w -> N.of_nat n <= M ->
  snd (step w (white_op m)) = SOk /\ St M n (m + 1) (cs ++ [m]) (fst (step w (white_op m))).
Proof.
  intros [] Hn. assert (Hs : snd (step w (white_op m)) = SOk).
  { apply accepted_iff; [done|done|]. cbn. split; [discriminate|]. split; [done|]. split; [vm_compute; discriminate|].
    split; [left; done|]. split; [apply t_fresh0; lia|]. split; [by right|]. rewrite t_dl0, t_ul0, t_max0. split_and!; try done. }
  split; [done|]. pose proof (reach_step w (white_op m) t_reach0) as Hr.
  unfold white_op in *. did_of w (OTx 100 E [] (Whitelist m 77 0 0 10 800)) Hs. split; cbn; try done.
  - rewrite t_calls0, map_app. done.
  - intros c Hc. rewrite lookup_insert_ne by lia. apply t_fresh0. lia.
Qed.

Lemma exec_white w c cs : w_calls w = KWhite c E 100 :: cs -> w_res w = [] ->
  exists lv, step w (OExec 0 (Some 0)) = (set_res [(KWhite c E 100, RDone 0)] (set_calls cs (set_live lv (set_log [] w))), SOk).
Proof.
  intros Hc Hr. unfold step. cbn. rewrite Hc. cbn. destruct (live_of (set_log [] w) c) as [x u]. cbn. rewrite Hr, Hc. eexists. reflexivity.
Qed.

Lemma st_answer M n m c cs w : St M n m (c :: cs) w ->
  statuses w answer_ops = [SOk; SOk] /\ St M (S n) m cs (run w answer_ops).
Proof.
  intros []. destruct (exec_white w c (map (fun c => KWhite c E 100) cs) t_calls0 t_res0) as [lv Es].
  pose proof (reach_step w (OExec 0 (Some 0)) t_reach0) as Hr1. cbn [answer_ops statuses run]. rewrite Es in *. cbn [fst snd] in *.
  set (w1 := set_res _ _) in *.
  assert (Em : minted E (w_pool w1) = E).
  { unfold ls_supply, virtual_reserve in t_one0. change (w_pool w1) with (w_pool w). unfold minted. rewrite t_one0.
    destruct (0 <? reserve (w_pool w)) eqn:B; [|done]. apply N.div_mul. lia. }
  assert (Hv : view_egld_value E w1 = Ok E).
  { rewrite <- Em at 2. apply view_egld_value_ok; [exact t_tok0|]. rewrite Em. vm_compute. reflexivity. }
  assert (Hn : nth_error (w_res w1) 0 = Some (KWhite c E 100, RDone 0)) by done.
  pose proof (cb_white_ok w1 0 c E 100 0 E Hr1 Hn Hv) as (K1 & K2 & K3 & K4 & (p & K5 & K6 & K7) & K8 & K9 & _ & _ & _ & _ & _ & _ & _ & K10 & K11 & _ & K12).
  split; [by rewrite K1|]. pose proof (reach_step w1 (OCb 0) Hr1) as Hr2.
  destruct K12 as (K12 & _ & K13 & _). split; [done|..].
  - by rewrite K12.
  - by rewrite K13.
  - by rewrite K12.
  - rewrite K3, app_length. cbn. rewrite t_dl0. lia.
  - rewrite K4, app_length. cbn. rewrite t_ul0. lia.
  - by rewrite K10.
  - by rewrite K11.
  - rewrite K8, K9. change (ls_supply w1) with (ls_supply w). change (virtual_reserve w1) with (virtual_reserve w). by rewrite t_one0.
  - intros d Hd. rewrite K7. destruct (N.eq_dec d c) as [->|Hne].
    + exfalso. change (w_pv w !! c = Some p) in K5. rewrite t_fresh0 in K5 by done. discriminate K5.
    + rewrite lookup_insert_ne by done. by apply t_fresh0.
Qed.

Definition one_ops (m : N) : list op := white_op m :: answer_ops.
Fixpoint one_by_one (j : nat) (m : N) : list op := match j with O => [] | S j => one_ops m ++ one_by_one j (m + 1) end.
Fixpoint start_all (j : nat) (m : N) : list op := match j with O => [] | S j => white_op m :: start_all j (m + 1) end.
Fixpoint answer_all (j : nat) : list op := match j with O => [] | S j => answer_ops ++ answer_all j end.

Definition fine (M K : N) (w : world) (os : list op) : Prop := along (whitelisting_within M K) w os /\ Forall (eq SOk) (statuses w os).
Lemma fine_app M K w a b : fine M K w a -> fine M K (run w a) b -> fine M K w (a ++ b).
Proof. intros [H1 H2] [H3 H4]. split; [by apply along_app|]. rewrite statuses_app. by apply Forall_app. Qed.

Lemma fine_nil M K w : fine M K w [].
Proof. split; [exact I|apply Forall_nil_2]. Qed.

Lemma fine_white M K n m cs w : St M n m cs w -> N.of_nat n <= M -> N.of_nat (length cs) < K -> fine M K w [white_op m].
Proof.
  intros H Hn Hk. destruct (st_white M n m cs w H Hn) as [Hs _]. split.
  - cbn. split; [|done]. split; [by rewrite (t_max _ _ _ _ _ H)|]. by rewrite (st_whitelisting _ _ _ _ _ H).
  - cbn [statuses]. rewrite Hs. by constructor.
Qed.
Lemma fine_answer M K n m c cs w : St M n m (c :: cs) w -> fine M K w answer_ops.
Proof.
  intros H. destruct (st_answer M n m c cs w H) as [Hs _]. split.
  - destruct H. destruct (exec_white w c (map (fun c => KWhite c E 100) cs) t_calls0 t_res0) as [lv Es].
    cbn [answer_ops along]. rewrite Es. cbn [fst]. split; [split; [by rewrite t_max0|done]|]. split; [split; [by cbn; rewrite t_max0|done]|done].
  - rewrite Hs. by repeat constructor.
Qed.

Lemma st_one_by_one M K j : forall n m w, St M n m [] w -> N.of_nat n + N.of_nat j <= M + 1 -> 1 <= K ->
  fine M K w (one_by_one j m) /\ St M (n + j) (m + N.of_nat j) [] (run w (one_by_one j m)).
Proof.
  induction j as [|j IH]; intros n m w H Hn HK.
  - cbn [one_by_one]. rewrite Nat.add_0_r, N.add_0_r. split; [apply fine_nil|done].
  - cbn [one_by_one]. destruct (st_white M n m [] w H ltac:(lia)) as [Hs H1]. cbn [app] in H1.
    pose proof (st_answer M n (m + 1) m [] _ H1) as [_ H2].
    assert (F : fine M K w (one_ops m)).
    { apply (fine_app M K w [white_op m] answer_ops); [by eapply (fine_white M K n m []); [done|lia|cbn; lia]|].
      by eapply fine_answer. }
    assert (E : run w (one_ops m) = run (fst (step w (white_op m))) answer_ops) by done.
    rewrite <- E in H2. destruct (IH _ _ _ H2 ltac:(lia) HK) as [F' H3]. rewrite run_app. split; [by apply fine_app|].
    replace (n + S j)%nat with (S n + j)%nat by lia. replace (m + N.of_nat (S j)) with (m + 1 + N.of_nat j) by lia. done.
Qed.

Lemma st_start_all M K j : forall n m cs w, St M n m cs w -> N.of_nat n <= M -> N.of_nat (length cs) + N.of_nat j <= K ->
  fine M K w (start_all j m) /\ exists cs', length cs' = (length cs + j)%nat /\ St M n (m + N.of_nat j) cs' (run w (start_all j m)).
Proof.
  induction j as [|j IH]; intros n m cs w H Hn HK.
  - cbn [start_all]. rewrite N.add_0_r. split; [apply fine_nil|]. exists cs. split; [lia|done].
  - cbn [start_all]. destruct (st_white M n m cs w H Hn) as [Hs H1].
    destruct (IH _ _ _ _ H1 Hn) as [F (cs' & L & H2)]. { rewrite app_length. cbn. lia. }
    split.
    + apply (fine_app M K w [white_op m]); [by eapply fine_white; [done|done|lia]|exact F].
    + exists cs'. rewrite app_length in L. cbn in L. split; [lia|]. cbn [run]. replace (m + N.of_nat (S j)) with (m + 1 + N.of_nat j) by lia. done.
Qed.

Lemma st_answer_all M K cs : forall n m w, St M n m cs w ->
  fine M K w (answer_all (length cs)) /\ St M (n + length cs) m [] (run w (answer_all (length cs))).
Proof.
  induction cs as [|c cs IH]; intros n m w H; cbn [length answer_all].
  - rewrite Nat.add_0_r. split; [apply fine_nil|done].
  - destruct (st_answer M n m c cs w H) as [_ H1]. destruct (IH _ _ _ H1) as [F H2]. rewrite run_app.
    split; [apply fine_app; [by eapply fine_answer|done]|]. replace (n + S (length cs))%nat with (S n + length cs)%nat by lia. done.
Qed.

Lemma along_within M K M' K' w os : M <= M' -> K <= K' -> along (whitelisting_within M K) w os -> along (whitelisting_within M' K') w os.
Proof.
  intros HM HK. revert w. induction os as [|o os IH]; intros w; [done|]. cbn [along]. intros [[H1 H2] H3]. split; [|by apply IH].
  split; [lia|]. destruct o; try done. destruct ep; try done. lia.
Qed.

Definition prep_ops (M : N) : list op := firstn 8 setup_ops ++ [OTx 100 0 [] (SetMaxAddresses M)].
Lemma set_max_st M m w : 1 <= M < 2 ^ 32 -> St m 0 1000 [] w ->
  snd (step w (OTx 100 0 [] (SetMaxAddresses M))) = SOk /\ St M 0 1000 [] (fst (step w (OTx 100 0 [] (SetMaxAddresses M)))).
Proof.
  intros HM []. assert (Hs : snd (step w (OTx 100 0 [] (SetMaxAddresses M))) = SOk).
  { apply accepted_iff; [done|done|]. cbn. split; [discriminate|]. split; [done|]. split; [by rewrite t_owner0|lia]. }
  split; [done|]. pose proof (reach_step w (OTx 100 0 [] (SetMaxAddresses M)) t_reach0) as Hr.
  did_of w (OTx 100 0 [] (SetMaxAddresses M)) Hs.
  match goal with H : f = _ /\ _ |- _ => destruct H as [-> _] end. by split.
Qed.

Lemma prep_st : St 1 0 1000 [] (run w0_one (firstn 8 setup_ops)).
Proof.
  assert (Hr : Reachable (run w0_one (firstn 8 setup_ops))) by apply reach_run, (deployed_reach _ w0_one_deployed).
  split; [exact Hr|..]; try (vm_compute; reflexivity).
Qed.

Lemma prep_ok M K : 1 <= M < 2 ^ 32 -> fine M K w0_one (prep_ops M) /\ St M 0 1000 [] (run w0_one (prep_ops M)).
Proof.
  intros HM. unfold prep_ops.
  assert (F : fine M K w0_one (firstn 8 setup_ops)).
  { split; [|apply all_ok; vm_compute; reflexivity].
    apply (along_within 1 0); [lia|lia|]. vm_compute. repeat split; discriminate. }
  pose proof prep_st as H. rewrite run_app.
  assert (F1 : forall w, St 1 0 1000 [] w -> fine M K w [OTx 100 0 [] (SetMaxAddresses M)]).
  { intros w Hw. destruct (set_max_st M 1 w HM Hw) as [Hs _].
    split; [|cbn [statuses]; rewrite Hs; by constructor]. cbn [along]. split; [|done]. split; [|done]. rewrite (t_max _ _ _ _ _ Hw). lia. }
  split; [apply fine_app; [exact F|exact (F1 _ H)]|]. exact (proj2 (set_max_st M 1 _ HM H)).
Qed.

Lemma limit_reached M K : 1 <= M < 2 ^ 32 -> 1 <= K ->
  exists w os, Deployed w /\ along (whitelisting_within M K) w os /\ Forall (eq SOk) (statuses w os)
    /\ c_maxaddr (w_cfg (run w os)) = M /\ N.of_nat (length (w_dl (run w os))) = M + K.
Proof.
  intros HM HK. destruct (prep_ok M K HM) as [F0 H0].
  destruct (st_one_by_one M K (N.to_nat M) _ _ _ H0 ltac:(lia) HK) as [F1 H1].
  destruct (st_start_all M K (N.to_nat K) _ _ _ _ H1 ltac:(lia) ltac:(cbn; lia)) as [F2 (cs & L & H2)].
  destruct (st_answer_all M K cs _ _ _ H2) as [F3 H3]. cbn in L.
  exists w0_one, (prep_ops M ++ one_by_one (N.to_nat M) 1000 ++ start_all (N.to_nat K) (1000 + N.of_nat (N.to_nat M)) ++ answer_all (length cs)).
  rewrite !run_app. split; [exact w0_one_deployed|].
  assert (F : fine M K w0_one (prep_ops M ++ one_by_one (N.to_nat M) 1000 ++ start_all (N.to_nat K) (1000 + N.of_nat (N.to_nat M)) ++ answer_all (length cs))).
  { repeat (apply fine_app; [assumption|]). assumption. }
  destruct F as [G1 G2]. split; [done|]. split; [done|]. split; [by apply H3|]. rewrite (t_dl _ _ _ _ _ H3). lia.
Qed.
