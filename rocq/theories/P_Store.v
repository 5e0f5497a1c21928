(** P_Store.v — properties C110 to C112: what is stored is read back, storage entries do
    not overlap, the lists in storage are the lists of the model. *)
From Coq Require Import String.
From Verif Require Import L_Calls L_Entries Scenario.
Open Scope N_scope.

(** C110 A provider's record written to storage is read back as it was written, is never
    mistaken for a missing one, and is refused if anything follows it. *)
Theorem C110_record : forall p, fits_prov p ->
  get_record (put_prov p) = Some p /\ put_prov p <> [] /\ (forall x r, get_record (put_prov p ++ x :: r) = None)
  /\ get_record [] = None.
Proof. exact record_kept. Qed.
Print Assumptions C110_record.
Example C110_record_case :
  fits_prov (Prov 77 (100 * E) (2 ^ 2039) 12 950 (7 * E) 0 true (3 * E) 1)
  /\ List.length (put_prov (Prov 77 (100 * E) (2 ^ 2039) 12 950 (7 * E) 0 true (3 * E) 1)) = 354%nat
  /\ get_record (put_prov (Prov 77 (100 * E) (2 ^ 2039) 12 950 (7 * E) 0 true (3 * E) 1))
     = Some (Prov 77 (100 * E) (2 ^ 2039) 12 950 (7 * E) 0 true (3 * E) 1).
Proof. split; [|split; vm_compute; reflexivity]. repeat split; repeat constructor. Qed.

(** The attributes of a receipt come back when the receipt does, *)
Theorem C110_receipt : forall a, fst a < 2 ^ 64 -> snd a < 2 ^ 64 ->
  get_attr (put_attr a) = Some a /\ (forall x r, get_attr (put_attr a ++ x :: r) = None) /\ get_attr [] = None.
Proof. exact attr_kept. Qed.
Print Assumptions C110_receipt.
Example C110_receipt_case : put_attr (1234, 1244) = [0;0;0;0;0;0;4;210;0;0;0;0;0;0;4;220]
  /\ get_attr [0;0;0;0;0;0;4;210;0;0;0;0;0;0;4;220] = Some (1234, 1244).
Proof. split; vm_compute; reflexivity. Qed.

(** the scoring configuration too, *)
Theorem C110_scoring : forall s, fits_scoring s ->
  get_scoring (put_scoring s) = Some s /\ put_scoring s <> [] /\ get_scoring [] = None.
Proof. exact scoring_kept. Qed.
Print Assumptions C110_scoring.
Example C110_scoring_case : get_scoring (put_scoring scfg_default) = Some scfg_default
  /\ List.length (put_scoring scfg_default) = 80%nat.
Proof. split; vm_compute; reflexivity. Qed.

(** and numbers, addresses and the state. A number is read as a narrower integer only if
    it fits; nothing stored reads as zero and as inactive, but not as an address. *)
Theorem C110_values :
  (forall k n, get_num (top_num k) = k /\ (k < 256 ^ N.of_nat n -> get_int n (top_num k) = Some k)
     /\ (256 ^ N.of_nat n <= k -> get_int n (top_num k) = None))
  /\ (forall k, top_num k = [] <-> k = 0)
  /\ (forall a, a < 2 ^ 256 -> get_addr (top_addr a) = Some a)
  /\ (forall l a, get_addr l = Some a -> List.length l = 32%nat)
  /\ (forall b, get_state (top_state b) = Some b).
Proof. exact values_kept. Qed.
Print Assumptions C110_values.
Example C110_values_case : top_num (2 ^ 64) = [1;0;0;0;0;0;0;0;0] /\ get_int 8 (top_num (2 ^ 64)) = None
  /\ get_int 8 (top_num 259200) = Some 259200 /\ get_addr (top_num 77) = None.
Proof. repeat split; vm_compute; reflexivity. Qed.

(** C111 No two entries of the storage share a key: a write changes the entry it is meant
    for and no other. *)
Theorem C111_no_overlap : forall e e' v s, fits_item e -> fits_item e' -> e <> e' ->
  key e <> key e' /\ put (key e) v s (key e') = s (key e') /\ put (key e) v s (key e) = v.
Proof. exact no_overlap. Qed.
Print Assumptions C111_no_overlap.
(** "delegationContract" and an address, "delegationAddressesMap" and a part of a list *)
Example C111_no_overlap_case :
  let e := IRecord 1000 in let e' := IDelegationList (NId 1000) in
  fits_item e /\ fits_item e' /\ e <> e' /\ take 10 (key e) = take 10 (key e')
  /\ put (key e) [1] (put (key e') [2] (fun _ => [])) (key e') = [2].
Proof. split; [done|]. split; [done|]. split; [discriminate|]. split; vm_compute; reflexivity. Qed.

(** None of them is a key that the protocol reserves or that the framework uses for
    calls under way. *)
Theorem C111_not_reserved : forall e l, key e <> text "ELROND" ++ l /\ key e <> text "CB_CLOSURE" ++ l.
Proof. exact not_reserved. Qed.
Print Assumptions C111_not_reserved.
Example C111_not_reserved_case : key IFees <> text "ELROND" ++ [1] /\ key (INonce 5) <> text "CB_CLOSURE" ++ be 32 5.
Proof. split; vm_compute; discriminate. Qed.

(** C112 The provider lists in storage, kept as linked nodes, are the lists of the model:
    after any insertions and removals (fewer than 2^32 insertions) iterating gives the
    list of the model, in its order; length and membership agree, and nothing outside
    the list's own keys has changed. *)
Theorem C112_linked_list : forall b s xs, (forall x, fits_node x -> s (nk b x) = []) -> inserts xs < 2 ^ 32 ->
  Forall (fun x => subject x < 2 ^ 256) xs ->
  let l := fold_left set_change xs [] in
  exists s', each (set_call b) xs s = Some s' /\ sm_items b s' = Some l /\ sm_len b s' = Some (N.of_nat (List.length l))
    /\ (forall a, a < 2 ^ 256 -> sm_contains b a s' = Some (bool_decide (a ∈ l)))
    /\ (forall k, (forall x, fits_node x -> k <> nk b x) -> s' k = s k).
Proof. exact set_calls_start. Qed.
Print Assumptions C112_linked_list.
(** the middle, the first, the last and the only element are removed, one comes back *)
Example C112_linked_list_case :
  let xs := [Ins 1000; Ins 1001; Ins 1002; Rem 1001; Ins 1001; Ins 1000; Rem 1000; Ins 1000; Rem 1000; Ins 1003] in
  match each (set_call DL) xs (fun _ => []) with
  | Some s => sm_items DL s = Some [1002; 1001; 1003] /\ sm_len DL s = Some 3 /\ sm_contains DL 1000 s = Some false
  | None => False
  end.
Proof. vm_compute. repeat split; reflexivity. Qed.

(** The same for the managers, kept as a vector with the position of each. *)
Theorem C112_vector : forall b s xs, (forall x, fits_slot x -> s (sk b x) = []) -> inserts xs < 2 ^ 32 ->
  Forall (fun x => subject x < 2 ^ 256) xs ->
  let l := fold_left vec_change xs [] in
  exists s', each (vec_call b) xs s = Some s' /\ us_items b s' = Some l /\ us_len b s' = Some (N.of_nat (List.length l))
    /\ (forall a, a < 2 ^ 256 -> us_contains b a s' = Some (bool_decide (a ∈ l)))
    /\ (forall k, (forall x, fits_slot x -> k <> sk b x) -> s' k = s k).
Proof. exact vec_calls_start. Qed.
Print Assumptions C112_vector.
Example C112_vector_case :
  let xs := [Ins 1; Ins 2; Ins 3; Ins 4; Rem 1; Ins 2; Rem 3; Ins 1; Rem 1] in
  match each (vec_call MGR) xs (fun _ => []) with
  | Some s => us_items MGR s = Some [4; 2] /\ us_contains MGR 2 s = Some true /\ us_contains MGR 3 s = Some false
  | None => False
  end.
Proof. vm_compute. repeat split; reflexivity. Qed.

(** In either of them is exactly who was last inserted and not removed since, once. *)
Theorem C112_last_word : forall xs a,
  (NoDup (fold_left set_change xs []) /\ (a ∈ fold_left set_change xs [] <-> last_in a xs = true))
  /\ (NoDup (fold_left vec_change xs []) /\ (a ∈ fold_left vec_change xs [] <-> last_in a xs = true)).
Proof. exact last_word_both. Qed.
Print Assumptions C112_last_word.
Example C112_last_word_case :
  last_in 1 [Ins 1; Ins 2; Rem 1; Ins 1] = true /\ last_in 2 [Ins 1; Ins 2; Rem 1; Rem 2] = false
  /\ fold_left set_change [Ins 1; Ins 2; Rem 1; Ins 1] [] = [2; 1].
Proof. repeat split; vm_compute; reflexivity. Qed.

(** Nothing is left behind: what is stored under a list's keys belongs to a value in the
    list, so an emptied list leaves no bytes in storage. *)
Theorem C112_nothing_left : forall b s xs s', inserts xs < 2 ^ 32 -> Forall (fun x => subject x < 2 ^ 256) xs ->
  ((forall x, fits_node x -> s (nk b x) = []) -> each (set_call b) xs s = Some s' ->
   let l := fold_left set_change xs [] in
   exists ids, List.length ids = List.length l
     /\ forall x, fits_node x -> s' (nk b x) <> [] ->
         match x with NInfo => l <> [] | NLinks i | NValue i => i ∈ ids | NId a => a ∈ l end)
  /\ ((forall x, fits_slot x -> s (sk b x) = []) -> each (vec_call b) xs s = Some s' ->
   let l := fold_left vec_change xs [] in
   forall x, fits_slot x -> s' (sk b x) <> [] ->
     match x with SLen => l <> [] | SItem i => 1 <= i <= N.of_nat (List.length l) | SIndex a => a ∈ l end).
Proof. exact both_clean. Qed.
Print Assumptions C112_nothing_left.
Example C112_nothing_left_case :
  match each (set_call DL) [Ins 1000; Ins 1001; Rem 1000; Rem 1001] (fun _ => []),
        each (vec_call MGR) [Ins 5; Ins 6; Rem 5] (fun _ => []) with
  | Some s, Some t =>
      forallb (fun x => match s (nk DL x) with [] => true | _ => false end)
        [NInfo; NLinks 1; NLinks 2; NValue 1; NValue 2; NId 1000; NId 1001] = true
      /\ t (sk MGR (SItem 1)) = top_addr 6 /\ t (sk MGR (SItem 2)) = [] /\ t (sk MGR (SIndex 5)) = []
  | _, _ => False
  end.
Proof. vm_compute. repeat split; reflexivity. Qed.

(** The lists are kept under their own entries of the storage (those of C111) and no
    others: a change to one leaves every other entry as it was, the entry with its
    length is empty exactly if the list is, and the entry of a value exactly if the
    value is not in it. *)
Theorem C112_own_entries : forall s xs s', inserts xs < 2 ^ 32 -> Forall (fun x => subject x < 2 ^ 256) xs ->
  (forall e, fits_item e -> match e with IDelegationList _ | IUnDelegationList _ | IManagers _ => s (key e) = [] | _ => True end) ->
  (each (set_call DL) xs s = Some s' ->
     (forall e, fits_item e -> (forall x, e <> IDelegationList x) -> s' (key e) = s (key e))
     /\ (s' (key (IDelegationList NInfo)) = [] <-> fold_left set_change xs [] = [])
     /\ forall a, a < 2 ^ 256 -> (s' (key (IDelegationList (NId a))) = [] <-> a ∉ fold_left set_change xs []))
  /\ (each (set_call UL) xs s = Some s' ->
     (forall e, fits_item e -> (forall x, e <> IUnDelegationList x) -> s' (key e) = s (key e))
     /\ (s' (key (IUnDelegationList NInfo)) = [] <-> fold_left set_change xs [] = [])
     /\ forall a, a < 2 ^ 256 -> (s' (key (IUnDelegationList (NId a))) = [] <-> a ∉ fold_left set_change xs []))
  /\ (each (vec_call MGR) xs s = Some s' ->
     (forall e, fits_item e -> (forall x, e <> IManagers x) -> s' (key e) = s (key e))
     /\ (s' (key (IManagers SLen)) = [] <-> fold_left vec_change xs [] = [])
     /\ forall a, a < 2 ^ 256 -> (s' (key (IManagers (SIndex a))) = [] <-> a ∉ fold_left vec_change xs [])).
Proof. exact own_entries. Qed.
Print Assumptions C112_own_entries.
Example C112_own_entries_case :
  let s := put (key IFees) [1; 144] (fun _ => []) in
  let xs := [Ins 5; Ins 6; Rem 5] in
  match each (set_call DL) xs s, each (vec_call MGR) xs s with
  | Some s1, Some s2 =>
      s1 (key IFees) = [1; 144] /\ s1 (key (IUnDelegationList NInfo)) = [] /\ s1 (key (IManagers SLen)) = []
      /\ s1 (key (IDelegationList NInfo)) <> [] /\ s1 (key (IDelegationList (NId 5))) = [] /\ s1 (key (IDelegationList (NId 6))) = [2]
      /\ s2 (key IFees) = [1; 144] /\ s2 (key (IManagers SLen)) = [1] /\ s2 (key (IManagers (SIndex 6))) = [1] /\ s2 (key (IManagers (SIndex 5))) = []
  | _, _ => False
  end.
Proof. vm_compute. repeat split; (reflexivity || discriminate). Qed.
