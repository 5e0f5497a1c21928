(** L_Entries.v — the lists occupy the entries of the storage that are theirs. *)
From Coq Require Import String.
From Verif Require Import L_Calls.
Open Scope N_scope.

Lemma set_first b s (l : list addr) : sm_len b s = Some (N.of_nat (List.length l)) -> (s (nk b NInfo) = [] -> l = []).
Proof. unfold sm_len, get_info. intros H E. rewrite E in H. cbn in H. injection H as H. destruct l; [done|cbn in H; lia]. Qed.
Lemma vec_first b s (l : list addr) : us_len b s = Some (N.of_nat (List.length l)) -> (s (sk b SLen) = [] -> l = []).
Proof. unfold us_len. intros H E. rewrite E in H. cbn in H. injection H as H. destruct l; [done|cbn in H; lia]. Qed.

Lemma set_entries b (mk : node -> item) s xs s' :
  (forall x, key (mk x) = nk b x) -> (forall x, fits_node x -> fits_item (mk x)) ->
  (forall x, fits_node x -> s (key (mk x)) = []) -> inserts xs < 2 ^ 32 -> Forall (fun x => subject x < 2 ^ 256) xs ->
  each (set_call b) xs s = Some s' ->
  (forall e, fits_item e -> (forall x, e <> mk x) -> s' (key e) = s (key e))
  /\ (s' (key (mk NInfo)) = [] <-> fold_left set_change xs [] = [])
  /\ forall a, a < 2 ^ 256 -> (s' (key (mk (NId a))) = [] <-> a ∉ fold_left set_change xs []).
Proof.
  intros Hk Hf Hs Hn Hx E.
  assert (Hs' : forall x, fits_node x -> s (nk b x) = []) by (intros x H; rewrite <- Hk; auto).
  destruct (set_calls_start b s xs Hs' Hn Hx) as (s1 & E1 & _ & Hl & Hc & Hu). rewrite E in E1. injection E1 as <-.
  destruct (set_clean b s xs s' Hs' Hn Hx E) as (ids & _ & Hcl). split; [|split].
  - intros e He Hne. apply Hu. intros x Hfx F. rewrite <- Hk in F. apply (Hne x). apply keys_differ; auto.
  - rewrite Hk. split; [by apply set_first|]. intros Hl0. destruct (s' (nk b NInfo)) eqn:F; [done|]. exfalso.
    apply (Hcl NInfo); [done|by rewrite F|done].
  - intros a Ha. rewrite Hk. split.
    + intros F Hin. specialize (Hc a Ha). unfold sm_contains, get_id in Hc. rewrite F in Hc. cbn in Hc.
      rewrite bool_decide_eq_true_2 in Hc by done. discriminate Hc.
    + intros Hout. destruct (s' (nk b (NId a))) eqn:F; [done|]. exfalso. apply Hout, (Hcl (NId a)); [done|by rewrite F].
Qed.
Lemma vec_entries s xs s' :
  (forall x, fits_slot x -> s (key (IManagers x)) = []) -> inserts xs < 2 ^ 32 -> Forall (fun x => subject x < 2 ^ 256) xs ->
  each (vec_call MGR) xs s = Some s' ->
  (forall e, fits_item e -> (forall x, e <> IManagers x) -> s' (key e) = s (key e))
  /\ (s' (key (IManagers SLen)) = [] <-> fold_left vec_change xs [] = [])
  /\ forall a, a < 2 ^ 256 -> (s' (key (IManagers (SIndex a))) = [] <-> a ∉ fold_left vec_change xs []).
Proof.
  intros Hs Hn Hx E.
  assert (Hs' : forall x, fits_slot x -> s (sk MGR x) = []) by (intros x H; exact (Hs x H)).
  destruct (vec_calls_start MGR s xs Hs' Hn Hx) as (s1 & E1 & _ & Hl & Hc & Hu). rewrite E in E1. injection E1 as <-.
  pose proof (vec_clean MGR s xs s' Hs' Hn Hx E) as Hcl. split; [|split].
  - intros e He Hne. apply Hu. intros x Hfx F. apply (Hne x). apply keys_differ; [done|exact Hfx|exact F].
  - change (key (IManagers SLen)) with (sk MGR SLen). split; [by apply vec_first|]. intros Hl0. destruct (s' (sk MGR SLen)) eqn:F; [done|]. exfalso.
    apply (Hcl SLen); [done|by rewrite F|done].
  - intros a Ha. change (key (IManagers (SIndex a))) with (sk MGR (SIndex a)). split.
    + intros F Hin. specialize (Hc a Ha). unfold us_contains, us_index in Hc. rewrite F in Hc. cbn in Hc.
      rewrite bool_decide_eq_true_2 in Hc by done. discriminate Hc.
    + intros Hout. destruct (s' (sk MGR (SIndex a))) eqn:F; [done|]. exfalso. apply Hout, (Hcl (SIndex a)); [done|by rewrite F].
Qed.

Lemma own_entries s xs s' : inserts xs < 2 ^ 32 -> Forall (fun x => subject x < 2 ^ 256) xs ->
  (forall e, fits_item e -> match e with IDelegationList _ | IUnDelegationList _ | IManagers _ => s (key e) = [] | _ => True end) ->
  (each (set_call DL) xs s = Some s' ->
     (forall e, fits_item e -> (forall x, e <> IDelegationList x) -> s' (key e) = s (key e))
     /\ (s' (key (IDelegationList NInfo)) = [] <-> fold_left set_change xs [] = [])
     /\ forall a, a < 2 ^ 256 -> (s' (key (IDelegationList (NId a))) = [] <-> a ∉ fold_left set_change xs []))
  /\ (each (set_call UL) xs s = Some s' ->
     (forall e, fits_item e -> (forall x, e <> IUnDelegationList x) -> s' (key e) = s (key e))
     /\ (s' (key (IUnDelegationList NInfo)) = [] <-> fold_left set_change xs [] = [])
     /\ forall a, a < 2 ^ 256 -> (s' (key (IUnDelegationList (NId a))) = [] <-> a ∉ fold_left set_change xs []))
  /\ (each (vec_call MGR) xs s = Some s' ->
     (forall e, fits_item e -> (forall x, e <> IManagers x) -> s' (key e) = s (key e))
     /\ (s' (key (IManagers SLen)) = [] <-> fold_left vec_change xs [] = [])
     /\ forall a, a < 2 ^ 256 -> (s' (key (IManagers (SIndex a))) = [] <-> a ∉ fold_left vec_change xs [])).
Proof.
  intros Hn Hx Hs. split; [|split]; intros E.
  - apply (set_entries DL IDelegationList s); [done|done| |done..]. intros x H. exact (Hs (IDelegationList x) H).
  - apply (set_entries UL IUnDelegationList s); [done|done| |done..]. intros x H. exact (Hs (IUnDelegationList x) H).
  - apply (vec_entries s); [|done..]. intros x H. exact (Hs (IManagers x) H).
Qed.
