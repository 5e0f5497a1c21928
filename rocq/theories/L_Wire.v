(** L_Wire.v — messages and promises as bytes (C122). *)
From Coq Require Import String.
From Verif Require Export Spec17 L_Mnet1.
From Verif Require Import L_Codec L_Abi L_Typed L_Lists L_Track L_Exits.
Open Scope N_scope.

Lemma top_num_len a : a < 2 ^ 256 -> N.of_nat (List.length (top_num a)) < 2 ^ 32.
Proof. intros H. unfold top_num. rewrite be_length. apply (big_small a a); [lia|done]. Qed.
Lemma top_addr_len a : N.of_nat (List.length (top_addr a)) < 2 ^ 32.
Proof. unfold top_addr. by rewrite be_length. Qed.

Lemma unpack_more l : Forall (fun b => N.of_nat (List.length b) < 2 ^ 32) l ->
  forall n, (List.length (closure l) <= n)%nat -> unpack_ n (closure l) = Some l.
Proof.
  induction 1 as [|b l Hb _ IH]; intros n Hn; [by destruct n|].
  cbn [closure map List.concat] in *. change (List.concat (map nest_buf l)) with (closure l) in *.
  pose proof (read_be_app 4 (N.of_nat (List.length b)) (b ++ closure l)) as Hr.
  unfold nest_buf in *. rewrite <- app_assoc in *. rewrite !app_length, be_length in Hn.
  assert (be 4 (N.of_nat (List.length b)) ++ b ++ closure l <> []) as Hne by (cbn; done).
  destruct n as [|n]; [lia|]. cbn [unpack_].
  destruct (be 4 (N.of_nat (List.length b)) ++ b ++ closure l) as [|x y] eqn:E; [done|]. rewrite Hr by exact Hb.
  rewrite Nat2N.id, read_bytes_app by done. rewrite IH by lia. done.
Qed.
Lemma unpack_closure l : Forall (fun b => N.of_nat (List.length b) < 2 ^ 32) l -> unpack (closure l) = Some l.
Proof. intros H. unfold unpack. by apply unpack_more. Qed.

Lemma named_text {A} n (l : list (string * A)) : named (text n) l = option_map snd (List.find (fun x => String.eqb (fst x) n) l).
Proof.
  unfold named. f_equal. induction l as [|x l IH]; [done|]. cbn [List.find]. rewrite text_eqb. by destruct (String.eqb (fst x) n).
Qed.

Lemma arg_big_top a : arg_big (top_num a) = Some a.
Proof. unfold arg_big. by rewrite num_top. Qed.

Lemma failure_read {A} (f : list bytes -> option A) rs : failure rs -> call_result f rs = Some None.
Proof.
  intros (e & c & m & Hi & He & Hrs). change 4 with (N.of_nat 4) in Hi; apply arg_int_iff in Hi. destruct Hrs as [->| ->]; cbn; rewrite Hi; by destruct e.
Qed.
Lemma done_read {A} (f : list bytes -> option A) c rs a : is_int 4 0 c -> f rs = Some a -> call_result f (c :: rs) = Some (Some a).
Proof. intros Hi Hf. change 4 with (N.of_nat 4) in Hi; apply arg_int_iff in Hi. cbn. by rewrite Hi, Hf. Qed.
Lemma no_values_fail rs : failure rs -> no_values rs = Some false.
Proof. intros H. unfold no_values. by rewrite failure_read. Qed.
Lemma no_values_done c : is_int 4 0 c -> no_values [c] = Some true.
Proof. intros H. unfold no_values. by rewrite (done_read _ c [] tt). Qed.

Ltac short := repeat first [apply Forall_nil_2 | apply Forall_cons_2; [first [apply top_addr_len|by apply top_num_len]|]].

Lemma callbacks_read k r g rs u : sendable k -> message k = Some g -> reported_as k r rs ->
  promise (g_cb g) (g_closure g) rs (attached k r) u = callback k r u.
Proof.
  intros Hs Hm Hr.
  assert (HA : forall a, get_addr (top_addr a) = Some a \/ 2 ^ 256 <= a).
  { intros a. destruct (N.lt_ge_cases a (2 ^ 256)); [left; by apply get_addr_top|by right]. }
  assert (HR : match k, r with KDeleg _ _, _ | KUndel _ _, _ | KWhite _ _ _, _ => no_values rs = Some (is_done r) | _, _ => True end).
  { destruct k, r; try done; cbn in Hr; first [by apply no_values_fail|destruct Hr as (c0 & -> & Hc); by apply no_values_done]. }
  destruct k as [c a|c a|c|l|c a who|]; cbn [message] in Hm; try discriminate; apply (inj Some) in Hm; subst g; cbn [g_cb g_closure] in *; unfold promise;
    rewrite unpack_closure by (repeat match goal with H : sendable _ |- _ => cbn [sendable] in H | H : _ /\ _ |- _ => destruct H end; short);
    rewrite named_text; cbn [List.find promise_callbacks fst snd option_map String.eqb Ascii.eqb Bool.eqb].
  - destruct Hs as [H1 H2]. unfold arg. rewrite get_addr_top, arg_big_top by done. cbn [no_more]. unfold with_result. by rewrite HR.
  - destruct Hs as [H1 H2]. unfold arg. rewrite get_addr_top, arg_big_top by done. cbn [no_more]. unfold with_result. by rewrite HR.
  - unfold arg. by rewrite get_addr_top.
  - cbn [no_more]. unfold with_result, one_number. destruct r as [|v]; cbn [reported_as] in Hr.
    + by rewrite failure_read.
    + destruct Hr as (c & b & -> & Hc & Hb). rewrite (done_read _ c [b] v); [done|done|]. unfold arg. apply arg_big_iff in Hb. by rewrite Hb.
  - destruct Hs as (H1 & H2 & H3). unfold arg. rewrite !get_addr_top, arg_big_top by done. cbn [no_more]. unfold with_result. by rewrite HR.
Qed.

Lemma addresses_read {B} (f : list addr -> B) l : Forall (fun c => c < 2 ^ 256) l -> any_number get_addr f (map top_addr l) = Some (f l).
Proof.
  intros H. revert f. induction H as [|c l Hc _ IH]; intros f; [done|]. cbn [map any_number]. rewrite get_addr_top by done. by rewrite IH.
Qed.

Lemma received epoch b k g ms mgr : sendable k -> message k = Some g -> ms !! DELEGATION_MANAGER = None ->
  arrives epoch g ms mgr = at_destination epoch b k ms mgr.
Proof.
  intros Hs Hm Hn.
  destruct k as [c a|c a|c|l|c a who|]; cbn [message] in Hm; try discriminate; apply (inj Some) in Hm; subst g; unfold arrives; cbn [g_to g_value g_fun g_args];
    cbn [at_destination].
  - destruct (c =? DELEGATION_MANAGER) eqn:E.
    { apply N.eqb_eq in E as ->. rewrite named_text, Hn. reflexivity. }
    rewrite named_text. destruct (ms !! c); reflexivity.
  - destruct (c =? DELEGATION_MANAGER) eqn:E.
    { apply N.eqb_eq in E as ->. rewrite named_text, Hn. reflexivity. }
    destruct (ms !! c) as [m|]; [|done]. rewrite named_text.
    cbn [List.find mock_functions fst snd option_map String.eqb Ascii.eqb Bool.eqb]. unfold unpaid, arg. rewrite arg_big_top. cbn [no_more N.eqb].
    change (0 =? 0) with true. cbv iota beta. destruct (mock_undelegate epoch a m); reflexivity.
  - destruct (c =? DELEGATION_MANAGER) eqn:E.
    { apply N.eqb_eq in E as ->. rewrite named_text, Hn. reflexivity. }
    destruct (ms !! c) as [m|]; [|done]. rewrite named_text.
    cbn [List.find mock_functions fst snd option_map String.eqb Ascii.eqb Bool.eqb]. unfold unpaid. cbn [no_more N.eqb].
    change (0 =? 0) with true. cbv iota beta. destruct (mock_withdraw epoch m) as [[? ?]|]; reflexivity.
  - rewrite N.eqb_refl, named_text. cbn [List.find manager_functions fst snd option_map String.eqb Ascii.eqb Bool.eqb].
    unfold unpaid. change (0 =? 0) with true. cbv iota beta. rewrite addresses_read by exact Hs. reflexivity.
  - destruct (c =? DELEGATION_MANAGER) eqn:E.
    { apply N.eqb_eq in E as ->. rewrite named_text, Hn. reflexivity. }
    rewrite named_text. destruct (ms !! c); reflexivity.
Qed.

Lemma top_addr_inj a b : a < 2 ^ 256 -> b < 2 ^ 256 -> top_addr a = top_addr b -> a = b.
Proof. intros Ha Hb E. apply get_addr_top in Ha, Hb. congruence. Qed.
Lemma top_num_inj a b : top_num a = top_num b -> a = b.
Proof. intros E. rewrite <- (num_top a), <- (num_top b). by rewrite E. Qed.
Lemma top_addrs_inj l : forall l', Forall (fun c => c < 2 ^ 256) l -> Forall (fun c => c < 2 ^ 256) l' -> map top_addr l = map top_addr l' -> l = l'.
Proof.
  induction l as [|a l IH]; intros [|b l'] H1 H2 E; try done. apply list.Forall_cons in H1 as [H1 H1'], H2 as [H2 H2'].
  cbn [map] in E. pose proof (f_equal (hd []) E) as E1. pose proof (f_equal (@tl _) E) as E2. cbn [hd tl] in E1, E2. f_equal; [by apply top_addr_inj|by apply IH].
Qed.

(** The closure says the rest. *)
Lemma closures_same l l' : Forall (fun b => N.of_nat (List.length b) < 2 ^ 32) l -> Forall (fun b => N.of_nat (List.length b) < 2 ^ 32) l' ->
  closure l = closure l' -> l = l'.
Proof. intros H1 H2 E. apply unpack_closure in H1, H2. congruence. Qed.
Lemma names_differ a b : text a = text b -> a <> b -> False.
Proof. intros H%text_inj. done. Qed.

Lemma one_call k k' g : sendable k -> sendable k' -> message k = Some g -> message k' = Some g -> k = k'.
Proof.
  intros Hs Hs' H1 H2. rewrite <- H1 in H2.
  destruct k as [c a|c a|c|l|c a who|], k' as [c' a'|c' a'|c'|l'|c' a' who'|]; cbn [message] in H1, H2; try discriminate H1; try discriminate H2; clear H1;
    apply (inj Some) in H2; pose proof (f_equal g_to H2) as E1; pose proof (f_equal g_cb H2) as E2; pose proof (f_equal g_closure H2) as E3;
    pose proof (f_equal g_args H2) as E4; pose proof (f_equal g_value H2) as E5; clear H2; cbn [g_to g_cb g_closure g_args g_value] in *;
    try (exfalso; eapply names_differ; [exact E2|discriminate]).
  all: cbn [sendable] in *; repeat match goal with H : _ /\ _ |- _ => destruct H end.
  all: try match goal with H : closure _ = closure _ |- _ =>
         apply closures_same in H; [|by short..] end.
  - by subst.
  - assert (top_num a = top_num a') as E by congruence. apply top_num_inj in E. by subst.
  - by subst.
  - f_equal. by apply top_addrs_inj.
  - assert (top_addr who = top_addr who') as E by congruence. apply top_addr_inj in E; [|done|done]. by subst.
Qed.

(** ** Along histories *)
Definition addr_ok (R : N) (k : call) : Prop :=
  match k with
  | KDeleg c a | KUndel c a => c < 2 ^ 256 /\ a <= R
  | KWithd c => c < 2 ^ 256
  | KClaim l => Forall (fun c => c < 2 ^ 256) l
  | KWhite c a who => c < 2 ^ 256 /\ a <= R /\ who < 2 ^ 256
  | KIssue _ _ _ => True
  end.
Lemma addr_mono R R' k : R <= R' -> addr_ok R k -> addr_ok R' k.
Proof. intros H. destruct k; cbn; try done; intros; repeat match goal with H : _ /\ _ |- _ => destruct H end; repeat split; try done; lia. Qed.
Lemma addr_sendable R k : R < 2 ^ 256 -> addr_ok R k -> sendable k.
Proof. intros H. destruct k; cbn; try done; intros; repeat match goal with H : _ /\ _ |- _ => destruct H end; repeat split; try done; lia. Qed.
Definition reply_ok (x : call * reply) : Prop :=
  match x with (KDeleg _ _, RDone v) | (KUndel _ _, RDone v) | (KWhite _ _ _, RDone v) => v = 0 | _ => True end.
Definition Sent (R : N) (w : world) : Prop := Forall (addr_ok R) (unanswered w) /\ Forall reply_ok (w_res w).

Lemma sent_keep R R' w w' : unanswered w' = unanswered w -> w_res w' = w_res w -> R <= R' -> Sent R w -> Sent R' w'.
Proof. intros E1 E2 H [H1 H2]. split; rewrite ?E1, ?E2; [|done]. eapply list.Forall_impl; [exact H1|]. intros k. by apply addr_mono. Qed.
Lemma sent_new R R' w w' ks : w_calls w' = w_calls w ++ ks -> w_res w' = w_res w -> R <= R' -> Forall (addr_ok R') ks -> Sent R w -> Sent R' w'.
Proof.
  intros E1 E2 H Hk [H1 H2]. split; [|by rewrite E2]. unfold unanswered in *. rewrite E1, E2.
  apply list.Forall_app in H1 as [H1 H3]. rewrite !list.Forall_app. repeat split; try done;
    (eapply list.Forall_impl; [eassumption|]); intros k; by apply addr_mono.
Qed.
Lemma drop_sub {A} i (l : list A) (P : A -> Prop) : Forall P l -> Forall P (drop_nth i l).
Proof. revert i. induction l as [|x l IH]; intros [|i] H; try done; apply list.Forall_cons in H as [H1 H2]; cbn; [done|]. apply list.Forall_cons. auto. Qed.
Lemma sent_reply R R' w w' i : w_calls w' = w_calls w -> w_res w' = drop_nth i (w_res w) -> R <= R' -> Sent R w -> Sent R' w'.
Proof.
  intros E1 E2 H [H1 H2]. split; [|rewrite E2; by apply drop_sub]. unfold unanswered in *. rewrite E1, E2.
  apply list.Forall_app in H1 as [H1 H3]. rewrite list.Forall_app. split.
  - eapply list.Forall_impl; [exact H1|]. intros k. by apply addr_mono.
  - rewrite list.Forall_fmap in H3 |- *. apply drop_sub. eapply list.Forall_impl; [exact H3|]. intros k. by apply addr_mono.
Qed.
Lemma sent_did R M T w o w' s : Lists w -> did w o w' s -> typed o -> from_account o ->
  Small R M T w -> Sent R w -> Sent (R + receives w o s w') w'.
Proof.
  intros HL Hd Ht Hf (_ & [HP1 HP2] & _ & _) HS.
  assert (Hdl : forall c, c ∈ w_dl w -> c < 2 ^ 256).
  { intros c Hc. destruct (l_rec _ _ _ _ HL c Hc) as [p Hp]. by apply HP2 in Hp as [? _]. }
  destruct Hd; repeat match goal with x := _ |- _ => subst x end;
    try (eapply (sent_keep R); [reflexivity|reflexivity| |exact HS]; lia);
    try (eapply (sent_reply R _ w); [reflexivity|reflexivity|lia|exact HS]).
  - match goal with H : ust_maybe _ _ _ _ |- _ => apply maybe_keeps in H as (_ & _ & E3 & E4 & _) end.
    match goal with E : w_calls _ = w_calls (egld_paid ?u ?i ?v) |- _ => destruct (paid_keeps u i v) as (_ & _ & F3 & F4 & _) end.
    apply (sent_keep R _ w); [unfold unanswered; cbn; by rewrite E3, E4, F3, F4|cbn; by rewrite E4, F4|lia|exact HS].
  - eapply (sent_new R _ w _ (map kdeleg ds)); [reflexivity|reflexivity|lia| |exact HS]. apply list.Forall_fmap, list.Forall_forall.
    intros d Hi. cbn. split.
    + match goal with H : Forall (deleg_sel_ok _) _ |- _ => rewrite list.Forall_forall in H; destruct (H d Hi) as (q & Hq & _) end. by apply HP2 in Hq as [? _].
    + pose proof (damts_in d ds (proj1 (elem_of_list_In _ _) Hi)). lia.
  - eapply (sent_new R _ w _ (map kundel ds)); [reflexivity|reflexivity|lia| |exact HS]. apply list.Forall_fmap, list.Forall_forall.
    intros d Hi. match goal with H : Forall (undel_sel_ok _) _ |- _ => rewrite list.Forall_forall in H; destruct (H d Hi) as (q & Hq & _ & Hq2 & _) end.
    apply HP2 in Hq as (P1 & P2 & P3 & P4 & P5 & P6 & P7 & P8). cbn. split; [done|lia].
  - eapply (sent_new R _ w _ [KWithd c]); [reflexivity|reflexivity|lia| |exact HS]. apply list.Forall_cons_2; [|by apply list.Forall_nil_2].
    match goal with H : is_Some _ |- _ => destruct H as [q Hq] end. by apply HP2 in Hq as [? _].
  - eapply (sent_new R _ w _ [KClaim (w_dl w)]); [reflexivity|reflexivity|lia| |exact HS]. apply list.Forall_cons_2; [|by apply list.Forall_nil_2].
    cbn. apply list.Forall_forall. exact Hdl.
  - eapply (sent_new R _ w _ [KWhite c payment caller]); [reflexivity|reflexivity|lia| |exact HS]. apply list.Forall_cons_2; [|by apply list.Forall_nil_2].
    cbn in Ht, Hf |- *. repeat split; try lia; by apply Ht.
  - eapply (sent_new R _ w _ [KIssue true caller payment]); [reflexivity|reflexivity|lia| |exact HS]. by apply list.Forall_cons_2; [|apply list.Forall_nil_2].
  - eapply (sent_new R _ w _ [KIssue false caller payment]); [reflexivity|reflexivity|lia| |exact HS]. by apply list.Forall_cons_2; [|apply list.Forall_nil_2].
  - assert (w_calls w1 = w_calls w /\ w_res w1 = w_res w /\ reply_ok (k, r)) as (E1 & E2 & E3).
    { match goal with H : exec_call _ _ _ = _ |- _ => rename H into H0' end. unfold exec_call in H0'. destruct out as [v|]; [|injection H0' as <- <-; by destruct k].
      destruct k; try (by injection H0' as <- <-); destruct (live_of w c) as [x u]; try (by injection H0' as <- <-);
        destruct (_ <=? _); try done; by injection H0' as <- <-. }
    cbn [receives]. rewrite N.add_0_r. destruct HS as [S1 S2]. split.
    + unfold unanswered. cbn. rewrite E1, E2. pose proof (unans_exec i k r w H) as HP. rewrite list.Forall_forall in S1 |- *. intros y Hy. apply S1. by rewrite <- HP.
    + cbn. rewrite E2. apply list.Forall_app. split; [done|]. by apply list.Forall_cons_2; [|apply list.Forall_nil_2].
Qed.

Lemma sent_step R M T w o : Reachable w -> typed o -> from_account o -> Small R M T w -> Sent R w ->
  Sent (R + receives w o (snd (step w o)) (fst (step w o))) (fst (step w o)).
Proof. intros Hr Ht Hf HS HX. exact (sent_did R M T (set_log [] w) o _ _ (lists w Hr) (step_did w o) Ht Hf HS HX). Qed.

Lemma small_deployed w : Deployed w -> c_acc (w_cfg w) < 2 ^ 256 -> Small 0 0 0 w.
Proof.
  intros Hd Hacc. destruct Hd as (owner & acc & fees & rpe & minr & maxsel & maxaddr & unbond & epoch & Hd).
  unfold deploy in Hd. apply rbind_ok in Hd as [[] [E Hd]]. apply rbind_ok in Hd as [g [Eg Hd]]. rstep Hd.
  unfold init in Eg. apply rbind_ok in Eg as [[] [_ Eg]]. apply rbind_ok in Eg as [[] [_ Eg]]. rstep Eg.
  rstep E. repeat (let K := fresh "K" in apply andb_true_iff in E as [E K]).
  repeat match goal with K : (_ <? _) = true |- _ => apply N.ltb_lt in K end.
  change U64 with (2 ^ 64) in *. change U32 with (2 ^ 32) in *. cbn in Hacc.
  split; [|split; [|split]].
  - unfold cfg_small; cbn. split_and!; try done; constructor.
  - split; [done|]. intros c p. cbn. by rewrite lookup_empty.
  - constructor.
  - done.
Qed.
Lemma sent_deployed w : Deployed w -> Sent 0 w.
Proof. intros Hd. destruct (deploy_shape _ Hd) as (x & y & z & ->). split; constructor. Qed.

Lemma sent_run os : forall R M T w, Reachable w -> Forall typed os -> Forall from_account os -> Small R M T w -> Sent R w ->
  Sent (R + tally receives w os) (run w os).
Proof.
  induction os as [|o os IH]; intros R M T w Hr Ht Hf HS HX; [by cbn; rewrite N.add_0_r|].
  apply list.Forall_cons in Ht as [Ho Ht], Hf as [Hf1 Hf].
  cbn [tally run]. rewrite N.add_assoc. eapply IH; try done; [by apply reach_step|by apply small_step|by eapply sent_step].
Qed.
Lemma all_sendable w os : Deployed w -> c_acc (w_cfg w) < 2 ^ 256 -> Forall typed os -> Forall from_account os ->
  tally receives w os < 2 ^ 256 -> Forall sendable (unanswered (run w os)).
Proof.
  intros Hd Ha Ht Hf HT. destruct (sent_run os 0 0 0 w (deployed_reach w Hd) Ht Hf (small_deployed w Hd Ha) (sent_deployed w Hd)) as [H _].
  eapply list.Forall_impl; [exact H|]. intros k. by apply addr_sendable.
Qed.

(** ** The network *)
Lemma manager_free n x : n_mocks n !! DELEGATION_MANAGER = None -> nproper x -> n_mocks (fst (nstep n x)) !! DELEGATION_MANAGER = None.
Proof.
  intros Hn Hx.
  assert (Hi : forall c m m', n_mocks n !! c = Some m -> <[c := m']> (n_mocks n) !! DELEGATION_MANAGER = None).
  { intros c m m' Hc. rewrite lookup_insert_ne; [done|]. intros ->. congruence. }
  destruct x as [o|i b|c v|c|c v|v]; cbn [nstep].
  - destruct o; try done; by destruct (step (n_w n) _).
  - destruct (nth_error (w_calls (n_w n)) i) as [k|]; [|done].
    assert (H : snd (fst (at_destination (w_epoch (n_w n)) b k (n_mocks n) (n_mgr n))) !! DELEGATION_MANAGER = None).
    { destruct k as [c a|c a|c|l|c a who|]; cbn [at_destination]; try done.
      - destruct (n_mocks n !! c) eqn:E; [by eapply Hi|done].
      - destruct (n_mocks n !! c) eqn:E; [|done]. destruct (mock_undelegate _ _ _); [by eapply Hi|done].
      - destruct (n_mocks n !! c) eqn:E; [|done]. destruct (mock_withdraw _ _) as [[? ?]|]; [by eapply Hi|done].
      - destruct (claim_multiple _ _ _ _) as [[[[ms g] v] rep]|] eqn:E; cbn; [|done].
        apply claim_multiple_inv in E as (_ & _ & _ & Hk & _). specialize (Hk DELEGATION_MANAGER). rewrite Hn in Hk. cbn in Hk. by destruct (ms !! DELEGATION_MANAGER).
      - destruct (n_mocks n !! c) eqn:E; [by eapply Hi|done]. }
    destruct (at_destination _ _ _ _ _) as [[out ms] g]. by destruct (step (n_w n) _).
  - destruct (n_mocks n !! c) eqn:E; [by eapply Hi|done].
  - destruct (n_mocks n !! c) eqn:E; [|done]. destruct (mock_claim _ _) as [[? ?]|]; [by eapply Hi|done].
  - destruct (n_mocks n !! c) eqn:E; [done|]. cbn. rewrite lookup_insert_ne; [done|]. exact Hx.
  - done.
Qed.

Lemma reported_read k r g code : 0 < code < 2 ^ 32 -> message k = Some g -> reply_ok (k, r) -> reported_as k r (report_of g r code).
Proof.
  intros Hc Hm Hk.
  assert (HF : failure [top_num code]).
  { exists code, (top_num code), []. split; [|split; [lia|by left]]. split; [by rewrite <- num_value, num_top|apply Hc]. }
  assert (H0 : is_int 4 0 [0]) by (split; by vm_compute).
  destruct k as [c a|c a|c|l|c a who|]; cbn [message] in Hm; try discriminate Hm; apply (inj Some) in Hm; subst g;
    destruct r as [|v]; cbn [report_of reported_as g_fun]; try done; try (rewrite bool_decide_eq_false_2; [by exists [0]|]; intros E%text_inj; discriminate).
  rewrite bool_decide_eq_true_2 by done. exists [0], (top_num v). split; [done|]. split; [done|]. unfold is_num. by rewrite <- num_value, num_top.
Qed.
Lemma brings_read k r g : message k = Some g -> reply_ok (k, r) -> brings g r = attached k r.
Proof.
  intros Hm Hk.
  destruct k as [c a|c a|c|l|c a who|]; cbn [message] in Hm; try discriminate Hm; apply (inj Some) in Hm; subst g; by destruct r.
Qed.

Lemma wstep_is n x R code : Sent R (n_w n) -> R < 2 ^ 256 -> n_mocks n !! DELEGATION_MANAGER = None -> 0 < code < 2 ^ 32 ->
  wstep code n x = nstep n x.
Proof.
  intros [H1 H2] HR Hn Hc.
  assert (HU : forall k, In k (unanswered (n_w n)) -> sendable k).
  { intros k Hk%elem_of_list_In. rewrite list.Forall_forall in H1. apply H1 in Hk. by eapply addr_sendable. }
  destruct x as [o|i b|c v|c|c v|v]; try done.
  - destruct o; try done. cbn [wstep nstep]. destruct (nth_error (w_res (n_w n)) i) as [[k r]|] eqn:E; [|done].
    destruct (message k) as [g|] eqn:Em; [|done].
    assert (Hk : sendable k) by (apply HU, elem_of_list_In; exact (res_unanswered _ _ _ _ E)).
    assert (Hr : reply_ok (k, r)) by (rewrite list.Forall_forall in H2; apply H2, elem_of_list_In; by eapply nth_error_In).
    rewrite (brings_read k r g Em Hr). rewrite (callbacks_read k r g _ _ Hk Em (reported_read k r g code Hc Em Hr)).
    unfold step. cbn [w_res set_log]. rewrite E. cbv zeta. by destruct (callback k r _).
  - cbn [wstep nstep]. destruct (nth_error (w_calls (n_w n)) i) as [k|] eqn:E; [|done]. cbn [option_map].
    destruct (message k) as [g|] eqn:Em; [|done].
    rewrite (received _ b k g _ _); [done| |done|done]. apply HU. unfold unanswered. apply in_app_iff. left. by eapply nth_error_In.
Qed.

Lemma as_op_typed n x : nproper x -> typed (as_op n x) /\ from_account (as_op n x).
Proof. destruct x as [o|i b|c v|c|c v|v]; cbn [nproper as_op]; try done. by destruct o. Qed.
Lemma as_op_receives n x : nreceives n x (snd (nstep n x)) (fst (nstep n x)) =
  receives (n_w n) (as_op n x) (snd (step (n_w n) (as_op n x))) (fst (step (n_w n) (as_op n x))).
Proof.
  destruct x as [o|i b|c v|c|c v|v]; cbn [nreceives as_op]; try done.
  destruct o; try done; cbn [nstep]; by destruct (step (n_w n) _).
Qed.

Lemma wire_run xs : forall R M T n code, Reachable (n_w n) -> Small R M T (n_w n) -> Sent R (n_w n) ->
  n_mocks n !! DELEGATION_MANAGER = None -> Forall nproper xs -> R + ntally nreceives n xs < 2 ^ 256 -> 0 < code < 2 ^ 32 ->
  wrun code n xs = nrun n xs /\ wstatuses code n xs = nstatuses n xs.
Proof.
  induction xs as [|x xs IH]; intros R M T n code Hr HS HX Hn Hp HT Hc; [done|].
  apply list.Forall_cons in Hp as [Hx Hp]. cbn [wrun wstatuses nrun nstatuses ntally] in *.
  rewrite (wstep_is n x R code) by (done || lia).
  destruct (as_op_typed n x Hx) as [Ht Hf]. rewrite as_op_receives in HT.
  pose proof (small_step R M T (n_w n) _ Hr Ht HS) as HS'. cbv zeta in HS'.
  pose proof (sent_step R M T (n_w n) _ Hr Ht Hf HS HX) as HX'.
  pose proof (reach_step (n_w n) (as_op n x) Hr) as Hr'. pose proof (manager_free n x Hn Hx) as Hn'.
  set (d := receives _ _ _ _) in *. rewrite <- (as_op_step n x) in Hr', HS', HX'.
  destruct (IH _ _ _ _ code Hr' HS' HX' Hn' Hp) as [E1 E2]; [lia|done|]. by rewrite E1, E2.
Qed.
Lemma wire_history n xs code : Start n -> c_acc (w_cfg (n_w n)) < 2 ^ 256 -> n_mocks n !! DELEGATION_MANAGER = None ->
  Forall nproper xs -> ntally nreceives n xs < 2 ^ 256 -> 0 < code < 2 ^ 32 ->
  wrun code n xs = nrun n xs /\ wstatuses code n xs = nstatuses n xs.
Proof.
  intros [Hd _] Ha Hn Hp HT Hc. eapply (wire_run xs 0 0 0); try done; [by apply deployed_reach|by apply small_deployed|by apply sent_deployed].
Qed.
