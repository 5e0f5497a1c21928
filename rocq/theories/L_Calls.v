(** L_Calls.v — lemmas for C110 to C112: malformed bytes, sequences of calls of the mappers. *)
From Verif Require Export L_Store.
From Verif Require Import L_Lists L_Access.
From Coq Require Import String.
Open Scope N_scope.

(** ** Bytes left over or missing *)
Lemma numbers_back k n : get_num (top_num k) = k /\ (k < 256 ^ N.of_nat n -> get_int n (top_num k) = Some k)
  /\ (256 ^ N.of_nat n <= k -> get_int n (top_num k) = None).
Proof.
  split; [apply num_top|]. split; [apply get_int_top|]. intros H. unfold get_int.
  destruct (Nat.leb_spec (List.length (top_num k)) n) as [Hl|]; [|done]. exfalso.
  unfold top_num in Hl. rewrite be_length in Hl. pose proof (width_ok k).
  assert (256 ^ N.of_nat (width k) <= 256 ^ N.of_nat n) by (apply N.pow_le_mono_r; lia). lia.
Qed.
Lemma shortest k l : num l = k -> Forall (fun x => x < 256) l -> (List.length (top_num k) <= List.length l)%nat.
Proof.
  intros <- Hf. unfold top_num. rewrite be_length. apply width_le.
  induction l as [|x l IH] using rev_ind; [done|]. apply Forall_app in Hf as [Hf Hx].
  apply list.Forall_cons in Hx as [Hx _]. rewrite num_snoc, app_length, Nat.add_comm. cbn [List.length Nat.add].
  rewrite pow256_S. specialize (IH Hf). cbn in *. lia.
Qed.
Lemma record_rest p x r : fits_prov p -> get_record (put_prov p ++ x :: r) = None.
Proof.
  intros (Ha & Hn & Hy & HF). repeat (apply list.Forall_cons in HF; destruct HF as [? HF]).
  destruct p as [ad t k n y st un el ps pu]; cbn [p_admin p_total p_cap p_nodes p_apy p_staked p_unstaked p_elig p_pst p_pun] in *.
  unfold get_record, put_prov, whole, rd; cbn [p_admin p_total p_cap p_nodes p_apy p_staked p_unstaked p_elig p_pst p_pun].
  rewrite <- !app_assoc.
  rewrite read_be_app by exact Ha. rewrite !read_num_app by done. rewrite read_be_app by exact Hn. rewrite read_be_app by exact Hy.
  rewrite !read_num_app by done. rewrite read_bool_app. rewrite !read_num_app by done. done.
Qed.
Lemma attr_rest a x r : fst a < 2 ^ 64 -> snd a < 2 ^ 64 -> get_attr (put_attr a ++ x :: r) = None.
Proof.
  intros H1 H2. destruct a as [a b]; cbn [fst snd] in *. unfold get_attr, put_attr, whole, rd; cbn [fst snd].
  rewrite <- app_assoc. rewrite read_be_app by exact H1. rewrite read_be_app by exact H2. done.
Qed.
Lemma addr_length l a : get_addr l = Some a -> List.length l = 32%nat.
Proof. unfold get_addr. by destruct (Nat.eqb_spec (List.length l) 32). Qed.

(** ** Keys *)
Lemma other_entry e e' v s : fits_item e -> fits_item e' -> e <> e' -> put (key e) v s (key e') = s (key e').
Proof. intros H1 H2 H. apply put_other. intros E. by apply H, eq_sym, keys_differ. Qed.
Lemma not_reserved e l : key e <> text "ELROND" ++ l /\ key e <> text "CB_CLOSURE" ++ l.
Proof. split; intros E; destruct e; cbv -[be node_key slot_key] in E; discriminate E. Qed.
Lemma list_keys x y : nk DL x = key (IDelegationList x) /\ nk UL x = key (IUnDelegationList x) /\ sk MGR y = key (IManagers y).
Proof. done. Qed.

(** ** Lists *)
Lemma set_calls_start b s xs : (forall x, fits_node x -> s (nk b x) = []) -> inserts xs < 2 ^ 32 ->
  Forall (fun x => subject x < 2 ^ 256) xs ->
  let l := fold_left set_change xs [] in
  exists s', each (set_call b) xs s = Some s' /\ sm_items b s' = Some l /\ sm_len b s' = Some (N.of_nat (List.length l))
    /\ (forall a, a < 2 ^ 256 -> sm_contains b a s' = Some (bool_decide (a ∈ l)))
    /\ (forall k, (forall x, fits_node x -> k <> nk b x) -> s' k = s k).
Proof.
  intros Hs Hn Hf l. destruct (set_calls_ok b xs s [] 0 (holds_set_start b s Hs) ltac:(lia) Hf) as (s' & E & Hh & Hu).
  exists s'. destruct (sm_items_ok _ _ _ _ Hh) as [Hi Hl]. repeat (split; [done|]). split; [|done].
  intros a Ha. by eapply sm_contains_ok.
Qed.
Lemma vec_length l x : (List.length (vec_change l x) <= List.length l + match x with Ins _ => 1 | Rem _ => 0 end)%nat.
Proof.
  destruct x as [a|a]; cbn [vec_change].
  - destruct (decide (a ∈ l)); [rewrite insert_in by done; lia|rewrite insert_out by done; rewrite app_length; cbn; lia].
  - destruct (decide (a ∈ l)) as [Hin|Hout]; [|rewrite swap_remove_out by done; lia].
    rewrite <- (Permutation_length (swap_remove_perm a l Hin)). cbn. lia.
Qed.
Lemma inserts_small xs : forall l, N.of_nat (List.length l) + inserts xs < 2 ^ 32 -> small l xs.
Proof.
  induction xs as [|x xs IH]; intros l H; [done|]. cbn [small].
  pose proof (vec_length l x) as Hl. unfold inserts in *. destruct x; cbn [List.filter List.length] in *; (split; [|apply IH]); lia.
Qed.
Lemma vec_calls_start b s xs : (forall x, fits_slot x -> s (sk b x) = []) -> inserts xs < 2 ^ 32 ->
  Forall (fun x => subject x < 2 ^ 256) xs ->
  let l := fold_left vec_change xs [] in
  exists s', each (vec_call b) xs s = Some s' /\ us_items b s' = Some l /\ us_len b s' = Some (N.of_nat (List.length l))
    /\ (forall a, a < 2 ^ 256 -> us_contains b a s' = Some (bool_decide (a ∈ l)))
    /\ (forall k, (forall x, fits_slot x -> k <> sk b x) -> s' k = s k).
Proof.
  intros Hs Hn Hf l. destruct (vec_calls_ok b xs s [] (holds_vec_start b s Hs) (inserts_small xs [] ltac:(cbn; lia)) Hf) as (s' & E & Hh & Hu).
  exists s'. split; [done|]. split; [by apply us_items_ok|]. split; [by apply us_len_ok|]. split; [|done].
  intros a Ha. by eapply us_contains_ok.
Qed.
Lemma last_word_set xs a : NoDup (fold_left set_change xs []) /\ (a ∈ fold_left set_change xs [] <-> last_in a xs = true).
Proof.
  induction xs as [|x xs IH] using rev_ind; [split; [constructor|]; split; [intros H; inversion H|done]|].
  unfold last_in in *. rewrite !fold_left_app. cbn [fold_left]. destruct IH as [IH1 IH2].
  destruct x as [c|c]; cbn [set_change subject].
  - split; [by apply set_insert_nodup|]. rewrite set_insert_in, IH2.
    destruct (N.eqb_spec c a); [subst; tauto|]. split; [intros [->|]; [done|done]|by right].
  - split; [by apply set_remove_nodup|]. rewrite set_remove_in, IH2.
    destruct (N.eqb_spec c a); [subst; split; [tauto|done]|]. split; [tauto|]. intros; split; [by intros ->|done].
Qed.
Lemma last_word_vec xs a : NoDup (fold_left vec_change xs []) /\ (a ∈ fold_left vec_change xs [] <-> last_in a xs = true).
Proof.
  induction xs as [|x xs IH] using rev_ind; [split; [constructor|]; split; [intros H; inversion H|done]|].
  unfold last_in in *. rewrite !fold_left_app. cbn [fold_left]. destruct IH as [IH1 IH2].
  destruct x as [c|c]; cbn [vec_change subject].
  - split; [by apply set_insert_nodup|]. rewrite set_insert_in, IH2.
    destruct (N.eqb_spec c a); [subst; tauto|]. split; [intros [->|]; [done|done]|by right].
  - split; [by apply swap_remove_nodup|]. rewrite swap_remove_in, IH2 by done.
    destruct (N.eqb_spec c a); [subst; split; [tauto|done]|]. split; [tauto|]. intros; split; [by intros ->|done].
Qed.

(** ** The statements of C110 and C111 *)
Lemma record_kept p : fits_prov p ->
  get_record (put_prov p) = Some p /\ put_prov p <> [] /\ (forall x r, get_record (put_prov p ++ x :: r) = None)
  /\ get_record [] = None.
Proof.
  intros H. pose proof (record_back p H) as E. split; [done|]. split; [intros F; by rewrite F in E|].
  split; [|done]. intros x r. by apply record_rest.
Qed.
Lemma attr_kept a : fst a < 2 ^ 64 -> snd a < 2 ^ 64 ->
  get_attr (put_attr a) = Some a /\ (forall x r, get_attr (put_attr a ++ x :: r) = None) /\ get_attr [] = None.
Proof. intros H1 H2. split; [by apply attr_back|]. split; [|done]. intros x r. by apply attr_rest. Qed.
Lemma scoring_kept s : fits_scoring s ->
  get_scoring (put_scoring s) = Some s /\ put_scoring s <> [] /\ get_scoring [] = None.
Proof. intros H. pose proof (scoring_back s H) as E. split; [done|]. split; [intros F; by rewrite F in E|done]. Qed.
Lemma values_kept :
  (forall k n, get_num (top_num k) = k /\ (k < 256 ^ N.of_nat n -> get_int n (top_num k) = Some k)
     /\ (256 ^ N.of_nat n <= k -> get_int n (top_num k) = None))
  /\ (forall k, top_num k = [] <-> k = 0)
  /\ (forall a, a < 2 ^ 256 -> get_addr (top_addr a) = Some a)
  /\ (forall l a, get_addr l = Some a -> List.length l = 32%nat)
  /\ (forall b, get_state (top_state b) = Some b).
Proof.
  split; [exact numbers_back|]. split; [exact top_num_nil|]. split; [exact get_addr_top|].
  split; [exact addr_length|]. by intros [].
Qed.
Lemma no_overlap e e' v s : fits_item e -> fits_item e' -> e <> e' ->
  key e <> key e' /\ put (key e) v s (key e') = s (key e') /\ put (key e) v s (key e) = v.
Proof.
  intros H1 H2 H. split; [intros F; by apply H, keys_differ|]. split; [by apply other_entry|]. apply put_same.
Qed.
Lemma last_word_both xs a :
  (NoDup (fold_left set_change xs []) /\ (a ∈ fold_left set_change xs [] <-> last_in a xs = true))
  /\ (NoDup (fold_left vec_change xs []) /\ (a ∈ fold_left vec_change xs [] <-> last_in a xs = true)).
Proof. exact (conj (last_word_set xs a) (last_word_vec xs a)). Qed.

(** ** Nothing is left behind *)
Lemma set_clean b s xs s' : (forall x, fits_node x -> s (nk b x) = []) -> inserts xs < 2 ^ 32 ->
  Forall (fun x => subject x < 2 ^ 256) xs -> each (set_call b) xs s = Some s' ->
  let l := fold_left set_change xs [] in
  exists ids, List.length ids = List.length l
    /\ forall x, fits_node x -> s' (nk b x) <> [] ->
        match x with NInfo => l <> [] | NLinks i | NValue i => i ∈ ids | NId a => a ∈ l end.
Proof.
  intros Hs Hn Hf E l. destruct (set_calls_ok b xs s [] 0 (holds_set_start b s Hs) ltac:(lia) Hf) as (s1 & E1 & Hh & _).
  rewrite E in E1. injection E1 as <-. fold l in Hh. destruct Hh as (ps & m & Hl & _ & _ & _ & _ & _ & _ & _ & _ & Hi & Ho & Hw).
  exists (map fst ps). split; [rewrite Hl; by rewrite !map_length|].
  intros x Hx Hne. destruct x as [|i|i|a]; cbn in Hx.
  - intros Hl0. rewrite Hl0 in Hl. apply Hne. rewrite Hi. by destruct ps.
  - destruct (decide (i ∈ map fst ps)) as [?|Hn1]; [done|]. by destruct Hne; apply Hw.
  - destruct (decide (i ∈ map fst ps)) as [?|Hn1]; [done|]. by destruct Hne; apply Hw.
  - rewrite Hl. destruct (decide (a ∈ map snd ps)) as [?|Hn1]; [done|]. by destruct Hne; apply Ho.
Qed.
Lemma vec_clean b s xs s' : (forall x, fits_slot x -> s (sk b x) = []) -> inserts xs < 2 ^ 32 ->
  Forall (fun x => subject x < 2 ^ 256) xs -> each (vec_call b) xs s = Some s' ->
  let l := fold_left vec_change xs [] in
  forall x, fits_slot x -> s' (sk b x) <> [] ->
    match x with SLen => l <> [] | SItem i => 1 <= i <= N.of_nat (List.length l) | SIndex a => a ∈ l end.
Proof.
  intros Hs Hn Hf E l. destruct (vec_calls_ok b xs s [] (holds_vec_start b s Hs) (inserts_small xs [] ltac:(cbn; lia)) Hf) as (s1 & E1 & Hh & _).
  rewrite E in E1. injection E1 as <-. fold l in Hh. destruct Hh as (_ & _ & _ & Hi & _ & Ho & Hw).
  intros x Hx Hne. destruct x as [|i|a]; cbn in Hx.
  - intros Hl0. apply Hne. rewrite Hi, Hl0. done.
  - destruct (decide (1 <= i <= N.of_nat (List.length l))) as [?|Hn1]; [done|]. destruct Hne. apply Hw; [done|]. lia.
  - destruct (decide (a ∈ l)) as [?|Hn1]; [done|]. by destruct Hne; apply Ho.
Qed.
Lemma both_clean b s xs s' : inserts xs < 2 ^ 32 -> Forall (fun x => subject x < 2 ^ 256) xs ->
  ((forall x, fits_node x -> s (nk b x) = []) -> each (set_call b) xs s = Some s' ->
   let l := fold_left set_change xs [] in
   exists ids, List.length ids = List.length l
     /\ forall x, fits_node x -> s' (nk b x) <> [] ->
         match x with NInfo => l <> [] | NLinks i | NValue i => i ∈ ids | NId a => a ∈ l end)
  /\ ((forall x, fits_slot x -> s (sk b x) = []) -> each (vec_call b) xs s = Some s' ->
   let l := fold_left vec_change xs [] in
   forall x, fits_slot x -> s' (sk b x) <> [] ->
     match x with SLen => l <> [] | SItem i => 1 <= i <= N.of_nat (List.length l) | SIndex a => a ∈ l end).
Proof. intros Hn Hf. split; intros H1 H2; [by eapply set_clean|by eapply vec_clean]. Qed.
