(** L_Essence.v — what matters of a history (C135). *)
From Verif Require Import Spec27 L_Often L_Away.
From Verif Require Import L_Donate.

Definition trace (w : world) (os : list op) : list (op * status) := List.combine os (statuses w os).
Lemma trace_cons w o os : trace w (o :: os) = (o, snd (step w o)) :: trace (fst (step w o)) os.
Proof. done. Qed.
Lemma trace_fst w os : map fst (trace w os) = os.
Proof. revert w. induction os as [|o os IH]; intros w; [done|]. rewrite trace_cons. cbn. by rewrite IH. Qed.
Lemma trace_snd w os : map snd (trace w os) = statuses w os.
Proof. revert w. induction os as [|o os IH]; intros w; [done|]. rewrite trace_cons. cbn [map statuses snd]. by rewrite IH. Qed.
Lemma pairs_eq {A B : Type} (l m : list (A * B)) : map fst l = map fst m -> map snd l = map snd m -> l = m.
Proof.
  revert m. induction l as [|[a b] l IH]; intros [|[c d] m]; cbn; try done. intros H1 H2. injection H1 as -> H1. injection H2 as -> H2.
  by rewrite (IH _ H1 H2).
Qed.
Lemma filter_fst (f : op -> bool) (l : list (op * status)) :
  map fst (List.filter (fun x => f (fst x)) l) = List.filter f (map fst l).
Proof. induction l as [|[o s] l IH]; [done|]. cbn. destruct (f o); cbn; by rewrite IH. Qed.
Lemma besides_trace w os : statuses_besides w os = map snd (List.filter (fun x => negb (is_withdrawal (fst x))) (trace w os)).
Proof.
  revert w. induction os as [|o os IH]; intros w; [done|]. rewrite trace_cons. cbn [statuses_besides List.filter fst].
  destruct (is_withdrawal o); cbn; by rewrite IH.
Qed.
Lemma other_trace w os : other_statuses w os = map snd (List.filter (fun x => negb (is_claim (fst x))) (trace w os)).
Proof.
  revert w. induction os as [|o os IH]; intros w; [done|]. rewrite trace_cons. cbn [other_statuses List.filter fst].
  destruct (is_claim o); cbn; by rewrite IH.
Qed.
Lemma trace_away w os : Reachable w -> along spends_properly w os ->
  trace w (without_withdrawals os) = List.filter (fun x => negb (is_withdrawal (fst x))) (trace w os).
Proof.
  intros Hr Ha. apply pairs_eq.
  - rewrite trace_fst, (filter_fst (fun o => negb (is_withdrawal o))), trace_fst. done.
  - rewrite trace_snd, <- besides_trace. symmetry. by apply (away_same w os Hr Ha).
Qed.
Lemma trace_often w os : Reachable w ->
  trace w (without_claims os) = List.filter (fun x => negb (is_claim (fst x))) (trace w os).
Proof.
  intros Hr. apply pairs_eq.
  - rewrite trace_fst, (filter_fst (fun o => negb (is_claim o))), trace_fst. done.
  - rewrite trace_snd, <- other_trace. symmetry. by apply (often_same w os Hr).
Qed.
Lemma filter_twice {A : Type} (f g : A -> bool) l : List.filter f (List.filter g l) = List.filter (fun x => g x && f x) l.
Proof. induction l as [|a l IH]; [done|]. cbn. destruct (g a); cbn; [|done]. destruct (f a); by rewrite IH. Qed.

Definition taken (l : list (op * status)) := List.filter (fun x => negb (refused (snd x))) l.
Lemma essence_trace w os :
  let l := List.filter (fun x => matters (fst x) (snd x)) (trace w os) in
  essence w os = map fst l /\ essential_statuses w os = map snd l.
Proof.
  revert w. induction os as [|o os IH]; intros w; [done|]. cbv zeta in *. rewrite trace_cons. cbn [essence essential_statuses List.filter fst snd].
  destruct (IH (fst (step w o))) as [-> ->]. by destruct (matters o (snd (step w o))).
Qed.

(** Refused actions leave nothing behind. *)
Lemma refused_step w o : refused (snd (step w o)) = true -> fst (step w o) = set_log [] w.
Proof.
  destruct o as [u e ps ep|i out|i|d|f t a|n f t a|a|a|c x u|i]; cbn [step]; intros H; repeat case_match; cbn in *; done.
Qed.
Lemma trace_log w l os : trace (set_log l w) os = trace w os.
Proof. unfold trace. by rewrite statuses_log. Qed.
Lemma received_log w l y os : egld_received y (set_log l w) os = egld_received y w os.
Proof. destruct os as [|o os]; [done|]. cbn [egld_received]. by rewrite step_log. Qed.
Lemma sent_none w y : egld_sent y (set_log [] w) = 0.
Proof. done. Qed.
Lemma taken_same os : forall w, let es := map fst (taken (trace w os)) in
  set_log [] (run w es) = set_log [] (run w os)
  /\ statuses w es = map snd (taken (trace w os))
  /\ forall y, egld_received y w es = egld_received y w os.
Proof.
  induction os as [|o os IH]; intros w; [done|]. cbv zeta in *. rewrite trace_cons. unfold taken. cbn [List.filter snd]. fold (taken (trace (fst (step w o)) os)).
  destruct (refused (snd (step w o))) eqn:R; cbn [negb].
  - pose proof (refused_step _ _ R) as E. cbn [run egld_received]. rewrite E, trace_log. destruct (IH w) as (I1 & I2 & I3).
    split; [by rewrite I1, run_log|]. split; [exact I2|]. intros y. by rewrite received_log, sent_none, I3.
  - cbn [map fst run statuses egld_received snd]. destruct (IH (fst (step w o))) as (I1 & I2 & I3).
    split; [exact I1|]. split; [by rewrite I2|]. intros y. by rewrite I3.
Qed.

Lemma same_trans p a b c : same p a b -> same p b c -> same p a c.
Proof. destruct p; cbn; intros; intuition congruence. Qed.
Lemma same_log p w v : set_log [] w = set_log [] v -> same p w v.
Proof. destruct w, v. unfold set_log. cbn. intros H. inversion H. subst. destruct p; cbn; done. Qed.

Lemma essence_same w os : Reachable w -> along spends_properly w os ->
  let es := essence w os in let z := run w os in let z' := run w es in let x := tally withdrawal w os in
  statuses w es = essential_statuses w os
  /\ (forall y, egld_received y w os = egld_received y w es + tally (withdrawn_by y) w os)
  /\ total_withdrawn z + x = total_withdrawn z'
  /\ (forall n y, ust_of n y z + tally (tokens_given n y) w os = ust_of n y z')
  /\ fees_reserve z <= fees_reserve z' /\ contract_egld z + x + (fees_reserve z' - fees_reserve z) = contract_egld z'
  /\ forall p, match p with Fees | Pot | Balance | UstOf _ _ => False | _ => True end -> same p z z'.
Proof.
  intros Hr Ha. cbv zeta.
  destruct (away_same w os Hr Ha) as (_ & A2 & A3 & A4 & A5 & A6).
  destruct (often_same w (without_withdrawals os) Hr) as (_ & B2 & B3 & B4 & B5).
  destruct (taken_same (without_claims (without_withdrawals os)) w) as (C1 & C2 & C3).
  assert (T : taken (trace w (without_claims (without_withdrawals os))) = List.filter (fun x => matters (fst x) (snd x)) (trace w os)).
  { unfold taken. rewrite trace_often by done. rewrite trace_away by done. rewrite !filter_twice. apply List.filter_ext. intros [o s].
    unfold matters. cbn [fst snd]. by rewrite <- ?andb_assoc. }
  destruct (essence_trace w os) as [E1 E2]. rewrite T in C1, C2, C3. cbv zeta in E1, E2. rewrite <- E1 in C1, C2, C3. rewrite <- E2 in C2.
  assert (L : forall p, same p (run w (without_claims (without_withdrawals os))) (run w (essence w os))) by (intros p; by apply same_log).
  split; [exact C2|]. split. { intros y. by rewrite A2, B2, C3. }
  assert (P1 : total_withdrawn (run w (essence w os)) = total_withdrawn (run w (without_withdrawals os)))
    by (rewrite (L Pot); by apply (B5 Pot)).
  assert (P2 : forall n y, ust_of n y (run w (essence w os)) = ust_of n y (run w (without_withdrawals os)))
    by (intros n y; rewrite (L (UstOf n y)); by apply (B5 (UstOf n y))).
  pose proof (A6 Fees I) as P3. pose proof (L Fees) as P4. pose proof (L Balance) as P5. cbn [same] in P3, P4, P5.
  split; [by rewrite P1|]. split; [intros n y; by rewrite P2|]. split; [lia|]. split; [lia|].
  intros p Np. eapply same_trans; [apply A6; by destruct p|]. eapply same_trans; [apply B5; by destruct p|]. apply L.
Qed.
