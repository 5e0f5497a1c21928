(** L_Mnet1.v — the contract in a network with the repository's mocks. *)
From Verif Require Import L_Acct L_Books L_Order L_Flow L_Lists L_Frame L_Donate.
From Verif Require Export L_Mock Spec15.

(** * The history of the contract *)
Definition as_op (n : net) (x : nact) : op :=
  match x with
  | NDo (OExec _ _) | NDo (OProvider _ _ _) => ODonate 0
  | NDo o => o
  | NExec i b =>
      OExec i (match nth_error (w_calls (n_w n)) i with
               | Some k => fst (fst (at_destination (w_epoch (n_w n)) b k (n_mocks n) (n_mgr n)))
               | None => None
               end)
  | _ => ODonate 0
  end.
Fixpoint ops_of (n : net) (xs : list nact) : list op :=
  match xs with [] => [] | x :: r => as_op n x :: ops_of (fst (nstep n x)) r end.

Lemma donate_nothing w : fst (step w (ODonate 0)) = set_log [] w.
Proof. unfold step. cbn. rewrite N.add_0_r. by destruct w. Qed.

Lemma as_op_step n x : n_w (fst (nstep n x)) = fst (step (n_w n) (as_op n x)).
Proof.
  destruct x as [o|i b|c v|c|c v|v]; cbn [nstep as_op].
  - destruct o; rewrite ?donate_nothing; try reflexivity; by destruct (step (n_w n) _).
  - destruct (nth_error (w_calls (n_w n)) i) as [k|] eqn:E.
    + destruct (at_destination _ b k _ _) as [[out ms] g]. cbn [fst]. by destruct (step (n_w n) _).
    + unfold step. cbn [w_calls set_log]. by rewrite E.
  - rewrite donate_nothing. by destruct (n_mocks n !! c).
  - rewrite donate_nothing. destruct (n_mocks n !! c) as [m|]; [|done]. by destruct (mock_claim _ m) as [[? ?]|].
  - rewrite donate_nothing. by destruct (n_mocks n !! c).
  - by rewrite donate_nothing.
Qed.

Lemma ops_of_app n xs ys : ops_of n (xs ++ ys) = ops_of n xs ++ ops_of (nrun n xs) ys.
Proof. revert n. induction xs as [|x xs IH]; intros n; [done|]. cbn. by rewrite IH. Qed.
Lemma nrun_app n xs ys : nrun n (xs ++ ys) = nrun (nrun n xs) ys.
Proof. revert n. induction xs as [|x xs IH]; intros n; [done|]. cbn. by rewrite IH. Qed.
Lemma nstatuses_app n xs ys : nstatuses n (xs ++ ys) = nstatuses n xs ++ nstatuses (nrun n xs) ys.
Proof. revert n. induction xs as [|x xs IH]; intros n; [done|]. cbn. by rewrite IH. Qed.
Lemma nalong_app P n xs ys : nalong P n (xs ++ ys) <-> nalong P n xs /\ nalong P (nrun n xs) ys.
Proof. revert n. induction xs as [|x xs IH]; intros n; cbn; [tauto|]. rewrite IH. tauto. Qed.

Lemma nrun_world n xs : n_w (nrun n xs) = run (n_w n) (ops_of n xs).
Proof.
  revert n. induction xs as [|x xs IH]; intros n; [done|]. cbn [nrun ops_of run]. by rewrite IH, as_op_step.
Qed.

Lemma as_op_seen n x : seen_as x (as_op n x).
Proof. destruct x as [o|i b|c v|c|c v|v]; cbn; try done; [by destruct o|by eexists]. Qed.

Lemma as_op_status n x : shown x -> snd (nstep n x) = snd (step (n_w n) (as_op n x)).
Proof.
  destruct x as [o|i b|c v|c|c v|v]; cbn [nstep as_op shown]; try done.
  - destruct o; try done; by destruct (step (n_w n) _).
  - intros _. destruct (nth_error (w_calls (n_w n)) i) as [k|] eqn:E.
    + destruct (at_destination _ b k _ _) as [[out ms] g]. cbn [fst]. by destruct (step (n_w n) _).
    + unfold step. cbn [w_calls set_log]. by rewrite E.
Qed.

Lemma net_history n xs :
  exists os, Forall2 seen_as xs os
    /\ (forall k, n_w (nrun n (firstn k xs)) = run (n_w n) (firstn k os))
    /\ (forall k x, nth_error xs k = Some x -> shown x ->
         nth_error (nstatuses n xs) k = nth_error (statuses (n_w n) os) k).
Proof.
  exists (ops_of n xs). split_and!.
  - revert n. induction xs as [|x xs IH]; intros n; cbn; constructor; [apply as_op_seen|apply IH].
  - intros k. revert n xs. induction k as [|k IH]; intros n [|x xs]; [done..|].
    cbn [firstn nrun ops_of run]. by rewrite IH, as_op_step.
  - intros k. revert n xs. induction k as [|k IH]; intros n [|x xs] y; [done| |done|].
    + cbn. intros [= ->] Hs. by rewrite as_op_status.
    + cbn [nth_error nstatuses ops_of statuses]. intros Hx Hs. rewrite <- as_op_step. by apply (IH _ xs y).
Qed.

(** * The books of the mocks *)
Definition Match (n : net) : Prop := forall c, live_of (n_w n) c = kept_at n c.

Lemma kept_insert ms w g c m d :
  kept_at (Net w (<[c := m]> ms) g) d = if d =? c then (m_dep m, m_und m) else kept_at (Net w ms g) d.
Proof.
  unfold kept_at. cbn. destruct (N.eqb_spec d c) as [->|E]; [by rewrite lookup_insert|by rewrite lookup_insert_ne].
Qed.
Lemma kept_net w n g d : kept_at (Net w (n_mocks n) g) d = kept_at n d. Proof. done. Qed.
Lemma live_insert w c x d : live_of (set_live (<[c := x]> (w_live w)) w) d = if d =? c then x else live_of w d.
Proof.
  unfold live_of. cbn. destruct (N.eqb_spec d c) as [->|E]; [by rewrite lookup_insert|by rewrite lookup_insert_ne].
Qed.

(** what the model does with the mock's answer *)
Lemma exec_matched n i b k :
  Match n -> nth_error (w_calls (n_w n)) i = Some k ->
  let '(out, ms, g) := at_destination (w_epoch (n_w n)) b k (n_mocks n) (n_mgr n) in
  exists r l, exec_call k out (set_log [] (n_w n)) = Some (r, set_live l (set_log [] (n_w n)))
    /\ (r = RFail <-> out = None)
    /\ forall d w, kept_at (Net w ms g) d = live_of (set_live l (n_w n)) d.
Proof.
  intros HM Hn. set (w := n_w n) in *.
  assert (HN : exists r l, exec_call k None (set_log [] w) = Some (r, set_live l (set_log [] w)) /\ (r = RFail <-> @None N = None)
    /\ forall d v, kept_at (Net v (n_mocks n) (n_mgr n)) d = live_of (set_live l w) d).
  { exists RFail, (w_live w). split_and!; [by destruct w|done|]. intros d v. rewrite kept_net. by rewrite <- HM. }
  assert (HI : forall c m x y, n_mocks n !! c = Some m -> (m_dep x, m_und x) = y ->
    forall d v, kept_at (Net v (<[c := x]> (n_mocks n)) (n_mgr n)) d = live_of (set_live (<[c := y]> (w_live w)) w) d).
  { intros c m x y Hm <- d v. rewrite kept_insert, live_insert, kept_net. by destruct (d =? c). }
  assert (HL : forall c m, n_mocks n !! c = Some m -> live_of (set_log [] w) c = (m_dep m, m_und m)).
  { intros c m Hm. change (live_of (set_log [] w) c) with (live_of w c). unfold w. rewrite HM. unfold kept_at. by rewrite Hm. }
  destruct k as [c a|c a|c|l|c a u|ls u a]; cbn [at_destination].
  - destruct (n_mocks n !! c) as [m|] eqn:E; [|exact HN]. cbn [exec_call]. rewrite (HL c m E).
    do 2 eexists. split_and!; [reflexivity|done|]. by apply (HI c m).
  - destruct (n_mocks n !! c) as [m|] eqn:E; [|exact HN].
    destruct (mock_undelegate (w_epoch w) a m) as [m'|] eqn:E1; [|exact HN].
    apply mock_undelegate_inv in E1 as [Ha ->]. cbn [exec_call]. rewrite (HL c m E).
    replace (a <=? m_dep m) with true by lia.
    do 2 eexists. split_and!; [reflexivity|done|]. by apply (HI c m).
  - destruct (n_mocks n !! c) as [m|] eqn:E; [|exact HN].
    destruct (mock_withdraw (w_epoch w) m) as [[m' v]|] eqn:E1; [|exact HN].
    apply mock_withdraw_inv in E1 as (_ & -> & _ & _ & _ & ->). cbn [exec_call]. rewrite (HL c m E).
    rewrite N.leb_refl. do 2 eexists. split_and!; [reflexivity|done|]. apply (HI c m); [done|]. cbn. f_equal. lia.
  - destruct (claim_multiple (w_epoch w) l (n_mocks n) (n_mgr n)) as [[[[ms' g'] v] rep]|] eqn:E; [|exact HN].
    apply claim_multiple_inv in E as (-> & -> & _ & Hk & _). cbn [exec_call].
    exists (RDone rep), (w_live w). split_and!; [by destruct w|done|].
    intros d v. transitivity (live_of w d); [|done]. unfold w. rewrite HM. unfold kept_at. cbn.
    specialize (Hk d). destruct (ms' !! d), (n_mocks n !! d); cbn in Hk; try done. congruence.
  - destruct (n_mocks n !! c) as [m|] eqn:E; [|exact HN]. cbn [exec_call]. rewrite (HL c m E).
    do 2 eexists. split_and!; [reflexivity|done|]. by apply (HI c m).
  - destruct b; [|exact HN]. cbn [exec_call]. exists (RDone 0), (w_live w).
    split_and!; [by destruct w|done|]. intros d v. rewrite kept_net. by rewrite <- HM.
Qed.

Lemma exec_world n i b k :
  Match n -> nth_error (w_calls (n_w n)) i = Some k ->
  exists r l ms g, fst (nstep n (NExec i b))
    = Net (set_res (w_res (n_w n) ++ [(k, r)]) (set_calls (drop_nth i (w_calls (n_w n))) (set_live l (set_log [] (n_w n))))) ms g
    /\ snd (nstep n (NExec i b)) = SOk
    /\ at_destination (w_epoch (n_w n)) b k (n_mocks n) (n_mgr n) = (match r with RFail => None | RDone v => Some v end, ms, g)
    /\ (forall d w, kept_at (Net w ms g) d = live_of (set_live l (n_w n)) d)
    /\ exec_call k (match r with RFail => None | RDone v => Some v end) (set_log [] (n_w n)) = Some (r, set_live l (set_log [] (n_w n))).
Proof.
  intros HM Hn. pose proof (exec_matched n i b k HM Hn) as H. cbn [nstep]. rewrite Hn.
  destruct (at_destination _ b k _ _) as [[out ms] g] eqn:EA. destruct H as (r & l & He & Hr & Hk).
  unfold step. cbn [w_calls set_log]. rewrite Hn, He.
  assert (Ho : out = match r with RFail => None | RDone v => Some v end).
  { destruct r as [|v]; [by apply Hr|]. destruct out as [o|]; [|by destruct Hr as [_ Hr]; specialize (Hr eq_refl)].
    f_equal. clear -He EA. destruct k; cbn in He, EA;
      repeat (match goal with
        | H : context [match n_mocks n !! ?c with _ => _ end] |- _ => destruct (n_mocks n !! c)
        | H : context [match mock_undelegate ?a ?b ?c with _ => _ end] |- _ => destruct (mock_undelegate a b c)
        | H : context [let '(_, _) := live_of ?a ?b in _] |- _ => destruct (live_of a b)
        | H : context [if ?x then _ else _] |- _ => destruct x
        end); try congruence. }
  exists r, l, ms, g. split_and!; try done; rewrite <- Ho; done.
Qed.

Lemma holding_kept w o d :
  match o with OExec _ _ | OProvider _ _ _ => False | _ => True end -> live_of (fst (step w o)) d = live_of w d.
Proof.
  intros H. apply (frame_step w o (Holding d)). destruct o; try done; cbn [may_change].
  - by destruct ep.
  - destruct (nth_error (w_res w) i) as [[k r]|]; [|done].
    destruct k, r; try done; match goal with b : bool |- _ => by destruct b end.
Qed.

Lemma match_step n x : Match n -> Match (fst (nstep n x)).
Proof.
  intros HM. destruct x as [o|i b|c v|c|c v|v]; cbn [nstep].
  - intros d. pose proof (holding_kept (n_w n) o d) as Hk.
    destruct o; try (exact (HM d)); specialize (Hk I);
      match goal with |- context [step ?a ?b] => destruct (step a b) as [w' s] end;
      cbn [fst n_w] in *; rewrite kept_net, <- HM; exact Hk.
  - destruct (nth_error (w_calls (n_w n)) i) as [k|] eqn:E; [|intros d; exact (HM d)].
    destruct (exec_world n i b k HM E) as (r & l & ms & g & E1 & _ & _ & Hk & _). cbn [nstep] in E1. rewrite E in E1. rewrite E1.
    intros d. cbn [n_w]. by rewrite Hk.
  - destruct (n_mocks n !! c) as [m|] eqn:E; [|exact HM]. intros d. cbn [fst n_w]. rewrite kept_insert, kept_net.
    change (live_of (set_log [] (n_w n)) d) with (live_of (n_w n) d). rewrite HM.
    destruct (N.eqb_spec d c) as [->|]; [|done]. unfold kept_at. by rewrite E.
  - destruct (n_mocks n !! c) as [m|] eqn:E; [|exact HM]. destruct (mock_claim (w_epoch (n_w n)) m) as [[m' v]|] eqn:E1; [|exact HM].
    apply mock_claim_inv in E1 as (E1 & E2 & _). intros d. cbn [fst n_w]. rewrite kept_insert, kept_net.
    change (live_of (set_log [] (n_w n)) d) with (live_of (n_w n) d). rewrite HM.
    destruct (N.eqb_spec d c) as [->|]; [|done]. unfold kept_at. rewrite E. by rewrite E1, E2.
  - destruct (n_mocks n !! c) as [m|] eqn:E; [exact HM|]. intros d. cbn [fst n_w]. rewrite kept_insert, kept_net.
    change (live_of (set_log [] (n_w n)) d) with (live_of (n_w n) d). rewrite HM.
    destruct (N.eqb_spec d c) as [->|]; [|done]. unfold kept_at. by rewrite E.
  - intros d. exact (HM d).
Qed.

Lemma match_run n xs : Match n -> Match (nrun n xs).
Proof. revert n. induction xs as [|x xs IH]; intros n H; [done|]. cbn. by apply IH, match_step. Qed.

Lemma start_match n : Start n -> Match n.
Proof.
  intros [Hd Hm] c. destruct (deploy_shape _ Hd) as (g & e & ow & ->). unfold live_of. cbn. rewrite lookup_empty. cbn.
  unfold kept_at. destruct (n_mocks n !! c) as [m|] eqn:E; [|done]. by destruct (Hm c m E) as [-> ->].
Qed.

Lemma net_books n xs c : Start n -> live_of (n_w (nrun n xs)) c = kept_at (nrun n xs) c.
Proof. intros H. by apply match_run, start_match. Qed.

Lemma net_reach n xs : Start n -> Reachable (n_w (nrun n xs)).
Proof. intros [H _]. rewrite nrun_world. by apply reach_run_, deployed_reach. Qed.

Lemma net_executes n xs i b k :
  Start n -> let v := nrun n xs in nth_error (w_calls (n_w v)) i = Some k ->
  snd (nstep v (NExec i b)) = SOk
  /\ exists r, w_res (n_w (fst (nstep v (NExec i b)))) = w_res (n_w v) ++ [(k, r)]
     /\ w_calls (n_w (fst (nstep v (NExec i b)))) = drop_nth i (w_calls (n_w v)).
Proof.
  intros Hs v Hn. destruct (exec_world v i b k (match_run n xs (start_match n Hs)) Hn) as (r & l & ms & g & E1 & E2 & _).
  split; [done|]. exists r. by rewrite E1.
Qed.
