(** P_Abi.v — properties C114 to C116: calls, answers of the views and events as bytes. *)
From Coq Require Import String.
From Verif Require Import L_Abi Scenario.
Open Scope N_scope.

(** C114 A call that means something (the name of an endpoint, and arguments in the formats
    of its parameters, no more and no fewer) does what that endpoint does with these
    parameters. A call that means nothing changes nothing. *)
Theorem C114_calls : forall w caller egld pays ok f args,
  (forall ep, means ok f args ep -> step_bytes w caller egld pays ok f args = step w (OTx caller egld pays ep))
  /\ ((forall ep, ~ means ok f args ep) -> fst (step_bytes w caller egld pays ok f args) = set_log [] w).
Proof. exact calls. Qed.
Print Assumptions C114_calls.
(** setFees with three bytes; the same with a leading zero; an argument too many *)
Example C114_calls_case :
  let call args := step_bytes w_setup 100 0 [] true (text "setFees"%string) args in
  means true (text "setFees"%string) [[1; 244]] (SetFees 500) /\ means true (text "setFees"%string) [[0; 1; 244]] (SetFees 500)
  /\ (forall ep, ~ means true (text "setFees"%string) [[1; 244]; []] ep)
  /\ c_fees (w_cfg w_setup) = 400 /\ c_fees (w_cfg (fst (call [[1; 244]]))) = 500
  /\ c_fees (w_cfg (fst (call [[0; 1; 244]]))) = 500 /\ c_fees (w_cfg (fst (call [[1; 244]; []]))) = 400.
Proof.
  cbn zeta. split; [by repeat constructor|]. split; [by repeat constructor|]. split.
  - intros ep H. apply understands in H. vm_compute in H. discriminate H.
  - vm_compute. repeat split.
Qed.

(** No call means two things. *)
Theorem C114_one_meaning : forall ok f args ep ep', means ok f args ep -> means ok f args ep' -> ep = ep'.
Proof. exact one_meaning. Qed.
Print Assumptions C114_one_meaning.
Example C114_one_meaning_case :
  means true (text "changeDelegationContractAdmin"%string) [top_addr 1000; top_addr 7] (ChangeAdmin 1000 7)
  /\ ~ means true (text "changeDelegationContractAdmin"%string) [top_addr 1000; top_addr 7] (ChangeAdmin 7 1000).
Proof.
  assert (means true (text "changeDelegationContractAdmin"%string) [top_addr 1000; top_addr 7] (ChangeAdmin 1000 7)) as H
    by (by repeat constructor).
  split; [exact H|]. intros K. pose proof (one_meaning _ _ _ _ _ H K) as E. discriminate E.
Qed.

(** What can be asked for by a call is exactly what fits: integers their width, addresses 32
    bytes, other numbers fewer than 2^32 bytes. *)
Theorem C114_callable : forall ok ep, (forall b, ep = ClaimFees b -> b = ok) ->
  expressible ep <-> exists f args, Forall byte_string args /\ means ok f args ep.
Proof. exact callable_iff. Qed.
Print Assumptions C114_callable.
Example C114_callable_case :
  expressible (SetUnbondPeriod (2 ^ 64 - 1)) /\ ~ expressible (SetUnbondPeriod (2 ^ 64))
  /\ expressible (Whitelist 1000 77 (2 ^ 300) 0 10 800) /\ ~ expressible (WithdrawPending (2 ^ 256)).
Proof.
  split; [by repeat constructor|]. split; [by intros [? _]|]. split; [by repeat constructor|].
  intros (_ & H & _). apply list.Forall_cons in H as [H _]. vm_compute in H. discriminate H.
Qed.

(** Functions that are exported but are no endpoints (init and upgrade, the callbacks, the
    views) have no effect when called. *)
Theorem C114_no_effect : forall f w caller egld pays ok args, Exists (fun n => f = text n) not_endpoints ->
  fst (step_bytes w caller egld pays ok f args) = set_log [] w.
Proof. exact refused_names. Qed.
Print Assumptions C114_no_effect.
(** an attempt to have a refused stake booked *)
Example C114_no_effect_case :
  let f := text "add_liquidity_callback"%string in
  Exists (fun n => f = text n) not_endpoints
  /\ w_pool (fst (step_bytes w_staked 500 0 [] true f [top_addr 1000; top_num E])) = w_pool w_staked.
Proof.
  split; [|vm_compute; reflexivity]. apply list.Exists_exists. exists "add_liquidity_callback"%string. split; [|reflexivity].
  unfold not_endpoints. repeat first [left|right].
Qed.

(** Deployment with bytes as arguments is deployment with the parameters they stand for. *)
Theorem C114_deployment : forall owner epoch args w, deploy_bytes owner epoch args = Ok w <->
  exists acc fees rpe minr maxsel maxaddr unbond,
    are (init_parameters acc fees rpe minr maxsel maxaddr unbond) args
    /\ deploy owner acc fees rpe minr maxsel maxaddr unbond epoch = Ok w.
Proof. exact deploy_iff. Qed.
Print Assumptions C114_deployment.
Definition deploy_args : list bytes :=
  [top_addr 200; top_num 400; top_num 14400; top_num 10; top_num 20; top_num 50; top_num 10].
Example C114_deployment_case :
  deploy_bytes 100 5 deploy_args = Ok w0
  /\ deploy_bytes 100 5 (top_num 200 :: tail deploy_args) = Er EDecode /\ deploy_bytes 100 5 (tail deploy_args) = Er EDecode.
Proof. vm_compute. repeat split. Qed.

(** A history of calls given as bytes is a history of the model, point for point. *)
Theorem C114_histories : forall w xs, exists os, Forall2 stands_for xs os /\
  forall n, act_run w (take n xs) = run w (take n os).
Proof. exact histories. Qed.
Print Assumptions C114_histories.
(** both tokens, scoring, a provider, a deposit, a call of nothing, a batch, a redemption *)
Definition byte_acts : list act :=
  let call who a f args := ACall who a [] true (text f) args in
  [call 100 5 "registerLsToken"%string [[88]; [88]; [18]]; AOther (OExec 0 (Some 0)); AOther (OCb 0);
   call 100 5 "registerUnstakeToken"%string [[85]; [85]; [18]]; AOther (OExec 0 (Some 0)); AOther (OCb 0);
   call 100 0 "setStateActive"%string []; call 100 0 "setScoringConfig"%string [put_scoring scfg_default];
   call 100 E "whitelistDelegationContract"%string [top_addr 1000; top_addr 77; []; []; [10]; [3; 32]];
   AOther (OExec 0 (Some 0)); AOther (OCb 0);
   call 500 (100 * E) "delegate"%string []; call 500 0 "upgrade"%string [];
   call 100 0 "delegatePending"%string []; AOther (OExec 0 (Some 0)); AOther (OCb 0);
   ACall 500 0 [Pay TokLs (40 * E)] true (text "unDelegate"%string) []].
(** the transactions they stand for *)
Definition byte_ops : list op :=
  [OTx 100 5 [] RegisterLsToken; OExec 0 (Some 0); OCb 0; OTx 100 5 [] RegisterUnstakeToken; OExec 0 (Some 0); OCb 0;
   OTx 100 0 [] SetStateActive; OTx 100 0 [] (SetScoringConfig scfg_default);
   OTx 100 E [] (Whitelist 1000 77 0 0 10 800); OExec 0 (Some 0); OCb 0; OTx 500 (100 * E) [] Delegate; nonsense;
   OTx 100 0 [] (DelegatePending None); OExec 0 (Some 0); OCb 0; OTx 500 0 [Pay TokLs (40 * E)] UnDelegate].
Lemma byte_acts_stand : Forall2 stands_for byte_acts byte_ops.
Proof.
  unfold byte_acts, byte_ops. cbv zeta.
  repeat (apply List.Forall2_cons; [first [reflexivity|left; eexists; split; [apply understood; vm_compute; reflexivity|reflexivity]
    |right; split; [intros ep H; apply understands in H; vm_compute in H; discriminate H|reflexivity]]|]). constructor.
Qed.
Example C114_histories_case :
  Forall2 stands_for byte_acts byte_ops /\ supply (w_pool (act_run w0 byte_acts)) = 61 * E
  /\ reserve (w_pool (act_run w0 byte_acts)) = 61 * E /\ w_un (act_run w0 byte_acts) <> ∅.
Proof. split; [exact byte_acts_stand|]. vm_compute. repeat split; discriminate. Qed.

(** The storage keeps up with every history of calls given as bytes (C113): arguments that
    come as bytes need no hypothesis about their size. *)
Theorem C114_storage : forall owner epoch args w xs os,
  Forall byte_string args -> deploy_bytes owner epoch args = Ok w -> Forall proper xs -> Forall2 stands_for xs os ->
  tally receives w os < 2 ^ 256 -> tally names_managers w os < 2 ^ 32 -> N.of_nat (length xs) < 2 ^ 64 ->
  tally insertions w os < 2 ^ 32 ->
  exists ms s, each do_call ms (fun _ => []) = Some s /\ keeps_up s w os.
Proof. exact bytes_storage. Qed.
Print Assumptions C114_storage.
Lemma bytes_by_test (l : list bytes) :
  forallb (fun b => forallb (fun k => k <? 256) b && (N.of_nat (length b) <? 2 ^ 32)) l = true -> Forall byte_string l.
Proof.
  intros H. rewrite forallb_forall in H. apply List.Forall_forall. intros b Hb. apply H in Hb.
  apply andb_true_iff in Hb as [H1 H2]. split; [|by apply N.ltb_lt].
  rewrite forallb_forall in H1. apply List.Forall_forall. intros k Hk. by apply N.ltb_lt, H1.
Qed.
Example C114_storage_case :
  Forall byte_string deploy_args /\ deploy_bytes 100 5 deploy_args = Ok w0 /\ Forall proper byte_acts
  /\ Forall2 stands_for byte_acts byte_ops /\ 0 < tally receives w0 byte_ops < 2 ^ 256
  /\ tally names_managers w0 byte_ops < 2 ^ 32 /\ N.of_nat (length byte_acts) < 2 ^ 64
  /\ 0 < tally insertions w0 byte_ops < 2 ^ 32.
Proof.
  split; [apply bytes_by_test; vm_compute; reflexivity|]. split; [vm_compute; reflexivity|].
  split; [unfold byte_acts; cbv zeta; repeat (apply List.Forall_cons; [first [exact I|apply bytes_by_test; vm_compute; reflexivity]|]); constructor|].
  split; [exact byte_acts_stand|]. split; [split; vm_compute; reflexivity|]. split; [vm_compute; reflexivity|].
  split; [vm_compute; reflexivity|]. split; vm_compute; reflexivity.
Qed.

(** C115 When the storage says what the state of the model says, every view answers with
    the bytes of what the model says: settings, lists, records, amounts, and the computed
    values (none where the model has an error). *)
Theorem C115_views : forall s w, reads s w -> shows s w.
Proof. exact views_show. Qed.
Print Assumptions C115_views.
Example C115_views_case : exists s, reads s (run w0 byte_ops)
  /\ query (text "getVirtualEgldReserve"%string) [] s = Some [top_num (61 * E)]
  /\ query (text "getUnstakeTokenNonce"%string) [[15]] s = Some [[1]] /\ query (text "getUnstakeTokenNonce"%string) [[14]] s = Some [[]].
Proof.
  destruct C114_storage_case as (H1 & H2 & H3 & H4 & [_ H5] & H6 & H7 & [_ H8]).
  destruct (bytes_storage _ _ _ _ _ _ H1 H2 H3 H4 H5 H6 H7 H8) as (ms & s & _ & Hk).
  destruct (keeps_up_shows byte_ops s w0 (length byte_ops) Hk) as (ms' & s' & _ & Hr). rewrite firstn_all in Hr.
  exists s'. split; [exact Hr|]. apply views_show in Hr. unfold shows in Hr. cbv zeta in Hr.
  destruct Hr as (_ & _ & _ & _ & _ & _ & _ & _ & _ & _ & _ & _ & V1 & _ & _ & _ & _ & _ & _ & _ & _ & _ & _ & _ & _ & _ & V2).
  rewrite V1, (V2 15), (V2 14) by (split; vm_compute; reflexivity). vm_compute. repeat split.
Qed.

(** In every history of calls given as bytes this is so at every point. *)
Theorem C115_always : forall owner epoch args w xs os n,
  Forall byte_string args -> deploy_bytes owner epoch args = Ok w -> Forall proper xs -> Forall2 stands_for xs os ->
  tally receives w os < 2 ^ 256 -> tally names_managers w os < 2 ^ 32 -> N.of_nat (length xs) < 2 ^ 64 ->
  tally insertions w os < 2 ^ 32 ->
  exists ms s, each do_call ms (fun _ => []) = Some s /\ shows s (act_run w (take n xs)).
Proof. exact bytes_views. Qed.
Print Assumptions C115_always.
(** its hypotheses are those of [C114_storage_case]; the answer to one query then is *)
Example C115_always_case : exists ms s, each do_call ms (fun _ => []) = Some s
  /\ query (text "getDelegationAddressesList"%string) [] s = Some [top_addr 1000]
  /\ query (text "getLsValueForPosition"%string) [top_num (7 * E)] s = Some [top_num (7 * E)]
  /\ query (text "getExchangeRate"%string) [] s = Some [top_num E].
Proof.
  destruct C114_storage_case as (H1 & H2 & H3 & H4 & [_ H5] & H6 & H7 & [_ H8]).
  destruct (C115_always _ _ _ _ _ _ (length byte_acts) H1 H2 H3 H4 H5 H6 H7 H8) as (ms & s & E1 & Hs).
  exists ms, s. split; [exact E1|]. rewrite firstn_all in Hs. unfold shows in Hs. cbv zeta in Hs.
  destruct Hs as (_ & _ & _ & _ & _ & _ & _ & _ & _ & _ & _ & _ & _ & _ & _ & _ & _ & _ & V1 & _ & V2 & V3 & _).
  rewrite V1, V2, (V3 (7 * E)) by (vm_compute; reflexivity). vm_compute. repeat split.
Qed.

(** Only the views answer, and none of them is an endpoint. *)
Theorem C115_only_views : forall f args s r, query f args s = Some r ->
  Exists (fun n => f = text n) view_names /\ forall ok args' ep, ~ means ok f args' ep.
Proof. exact only_views. Qed.
Print Assumptions C115_only_views.
Example C115_only_views_case :
  query (text "getState"%string) [] (put (key IState) [1] (fun _ => [])) = Some [[1]]
  /\ query (text "getstate"%string) [] (put (key IState) [1] (fun _ => [])) = None.
Proof. vm_compute. repeat split. Qed.

(** A view answers only when it is asked with what it takes: nothing, or exactly one
    argument in the right format. *)
Theorem C115_arguments : forall n args s r, query (text n) args s = Some r -> asked_with n args.
Proof. exact query_takes. Qed.
Print Assumptions C115_arguments.
Example C115_arguments_case :
  let s := put (key IFees) [5] (fun _ => []) in
  query (text "fees"%string) [] s = Some [[5]] /\ query (text "fees"%string) [[]] s = None
  /\ query (text "getUnstakeTokenNonce"%string) [[1; 0]] s = Some [[]]
  /\ query (text "getUnstakeTokenNonce"%string) [[1; 0; 0; 0; 0; 0; 0; 0; 0]] s = None
  /\ query (text "getUnstakeTokenNonce"%string) [] s = None.
Proof. vm_compute. repeat split. Qed.

(** C116 Every event of the contract, and nothing else, is written as topics, and whoever
    reads them learns what the event tells: its kind, the amount, the provider of a
    withdrawal, who caused it, the token, the seven amounts of the pool, block, epoch and
    time. *)
Theorem C116_events : forall token block time x,
  N.of_nat (length token) < 2 ^ 32 -> block < 2 ^ 64 -> time < 2 ^ 64 -> fits_event x ->
  (forall t, tells token block time x = Some t <-> exists l, topics token block time x = Some l /\ read_event l = Some t)
  /\ forall l, topics token block time x = Some l -> read_event l <> None.
Proof. exact event_told. Qed.
Print Assumptions C116_events.
Example C116_events_case :
  let x := EvWithdrawPending (3 * E) 1000 100 (Pool 1 2 300 4 5 6 (2 ^ 70)) 15 in
  fits_event x /\ exists l, topics (text "XEGLD-abcdef"%string) 9 1700000000 x = Some l /\ length l = 4%nat
  /\ tells (text "XEGLD-abcdef"%string) 9 1700000000 x = read_event l.
Proof.
  split; [by repeat constructor|]. eexists. split; [reflexivity|]. split; [reflexivity|]. vm_compute. reflexivity.
Qed.

(** Two events with the same topics are the same. *)
Theorem C116_no_confusion : forall token block time x token' block' time' x' l,
  N.of_nat (length token) < 2 ^ 32 -> block < 2 ^ 64 -> time < 2 ^ 64 -> fits_event x ->
  N.of_nat (length token') < 2 ^ 32 -> block' < 2 ^ 64 -> time' < 2 ^ 64 -> fits_event x' ->
  topics token block time x = Some l -> topics token' block' time' x' = Some l -> x = x'.
Proof. exact topics_inj. Qed.
Print Assumptions C116_no_confusion.
Example C116_no_confusion_case :
  let k := Pool 1 2 3 4 5 6 7 in
  topics [] 9 10 (EvAdd 5 100 k 15) <> topics [] 9 10 (EvRemove 5 100 k 15)
  /\ topics [] 9 10 (EvAdd 5 100 k 15) <> topics [] 9 10 (EvAdd 5 100 (Pool 1 2 3 4 5 7 6) 15).
Proof. vm_compute. split; discriminate. Qed.

(** Somebody who knows the pool at one point, and from there reads the topics of the events
    and sees the deposits of fees, knows the pool for ever (C108 with bytes). *)
Theorem C116_observer : forall token clock os, N.of_nat (length token) < 2 ^ 32 ->
  (forall n, fst (clock n) < 2 ^ 64 /\ snd (clock n) < 2 ^ 64) ->
  forall n w, events_fit w os -> watched_bytes token clock n (w_pool w) w os = w_pool (run w os).
Proof. exact watched_bytes_run. Qed.
Print Assumptions C116_observer.
Example C116_observer_case :
  events_fit w0 byte_ops
  /\ watched_bytes (text "XEGLD-abcdef"%string) (fun n => (N.of_nat n, 1700000000)) 0 (Pool 0 0 0 0 0 0 0) w0 byte_ops
     = w_pool (run w0 byte_ops)
  /\ reserve (w_pool (run w0 byte_ops)) = 61 * E.
Proof.
  split; [apply events_by_test; vm_compute; reflexivity|]. split; vm_compute; reflexivity.
Qed.
