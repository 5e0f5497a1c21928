(** L_Store.v — lemmas about Storage.v: keys do not collide (C111), the collections
    behave like lists (C112). *)
From Verif Require Export L_Codec.

(** ** Keys *)
Lemma node_key_inj x y : fits_node x -> fits_node y -> node_key x = node_key y -> x = y.
Proof.
  intros Hx Hy E. destruct x, y; try reflexivity;
    try (apply app_inv_head in E; f_equal; revert E; apply be_inj; assumption);
    cbv -[be] in E; discriminate E.
Qed.
Lemma slot_key_inj x y : fits_slot x -> fits_slot y -> slot_key x = slot_key y -> x = y.
Proof.
  intros Hx Hy E. destruct x, y; try reflexivity;
    try (apply app_inv_head in E; f_equal; revert E; apply be_inj; assumption);
    cbv -[be] in E; discriminate E.
Qed.
Lemma keys_differ e e' : fits_item e -> fits_item e' -> key e = key e' -> e = e'.
Proof.
  intros He He' E.
  destruct e, e'; unfold key in E;
    try (f_equal; apply node_key_inj; [assumption..|exact (app_inv_head _ _ _ E)]);
    try (f_equal; apply slot_key_inj; [assumption..|exact (app_inv_head _ _ _ E)]);
    try (cbv -[be node_key slot_key] in E; discriminate E); try reflexivity.
  all: try (apply app_inv_head in E; f_equal; revert E; apply be_inj; assumption).
Qed.

(** ** Writes *)
Lemma put_same k v s : put k v s k = v.
Proof. unfold put. by rewrite decide_True. Qed.
Lemma put_other k v s x : x <> k -> put k v s x = s x.
Proof. intros H. unfold put. by rewrite decide_False. Qed.

(** ** SetMapper *)
Section SetMapper.
Variable b : bytes.

Lemma nk_inj x y : fits_node x -> fits_node y -> nk b x = nk b y -> x = y.
Proof. intros Hx Hy E. apply node_key_inj; [done..|]. exact (app_inv_head _ _ _ E). Qed.
Lemma put_nk x v s y : fits_node x -> fits_node y -> y <> x -> put (nk b x) v s (nk b y) = s (nk b y).
Proof. intros Hx Hy Hn. apply put_other. intros E. by apply Hn, nk_inj. Qed.

Definition hdi (ps : list (N * addr)) (d : N) : N := match ps with [] => d | (i, _) :: _ => i end.
Fixpoint lasti (ps : list (N * addr)) (d : N) : N := match ps with [] => d | (i, _) :: r => lasti r i end.
(** the nodes [ps] are linked, between the nodes [prev] and [next] *)
Fixpoint chain (s : store) (prev : N) (ps : list (N * addr)) (next : N) : Prop :=
  match ps with
  | [] => True
  | (i, a) :: r =>
      s (nk b (NLinks i)) = be 4 prev ++ be 4 (hdi r next)
      /\ s (nk b (NValue i)) = top_addr a /\ s (nk b (NId a)) = top_num i
      /\ chain s i r next
  end.
Lemma lasti_app p i a d : lasti (p ++ [(i, a)]) d = i.
Proof. revert d; induction p as [|[j z] p IH]; intros d; cbn; [done|]. apply IH. Qed.
Lemma hdi_app p q d : hdi (p ++ q) d = hdi p (hdi q d).
Proof. by destruct p as [|[j z] p]. Qed.
Lemma chain_app s p q prev next :
  chain s prev (p ++ q) next <-> chain s prev p (hdi q next) /\ chain s (lasti p prev) q next.
Proof.
  revert prev; induction p as [|[i a] p IH]; intros prev; cbn [chain app lasti]; [tauto|].
  rewrite IH, hdi_app. tauto.
Qed.
Lemma chain_frame s s' p prev next :
  (forall i a, (i, a) ∈ p -> s' (nk b (NLinks i)) = s (nk b (NLinks i)) /\ s' (nk b (NValue i)) = s (nk b (NValue i))
     /\ s' (nk b (NId a)) = s (nk b (NId a))) ->
  chain s prev p next -> chain s' prev p next.
Proof.
  revert prev; induction p as [|[i a] p IH]; intros prev Hf; cbn [chain]; [done|].
  intros (H1 & H2 & H3 & H4). destruct (Hf i a) as (F1 & F2 & F3); [left|].
  rewrite F1, F2, F3. repeat split; [done..|]. apply IH; [|done]. intros j z Hj. apply Hf. by right.
Qed.

Definition fits_nodes (ps : list (N * addr)) : Prop :=
  Forall (fun x => 0 < fst x < 2 ^ 32 /\ snd x < 2 ^ 256) ps.

Lemma read_links p n : p < 2 ^ 32 -> n < 2 ^ 32 ->
  whole (rd (read_be 4) (fun p => rd (read_be 4) (fun n => yield (p, n)))) (be 4 p ++ be 4 n) = Some (p, n).
Proof.
  intros Hp Hn. unfold whole, rd. rewrite read_be_app by exact Hp.
  rewrite <- (app_nil_r (be 4 n)), read_be_app by exact Hn. done.
Qed.
Lemma hdi_fits ps d : fits_nodes ps -> d < 2 ^ 32 -> hdi ps d < 2 ^ 32.
Proof. destruct ps as [|[i a] r]; [done|]. intros H _. apply list.Forall_cons in H. cbn in *. lia. Qed.
Lemma lasti_fits ps d : fits_nodes ps -> d < 2 ^ 32 -> lasti ps d < 2 ^ 32.
Proof.
  revert d; induction ps as [|[i a] r IH]; intros d; [done|]. intros H _. apply list.Forall_cons in H.
  cbn [lasti]. apply IH; [tauto|]. cbn in H. lia.
Qed.

Lemma walk_chain s ps prev : fits_nodes ps -> prev < 2 ^ 32 -> chain s prev ps 0 ->
  forall n, (length ps <= n)%nat -> sm_walk b n (hdi ps 0) s = Some (map snd ps).
Proof.
  revert prev; induction ps as [|[i a] r IH]; intros prev Hf Hp Hc n Hn; [by destruct n|].
  destruct Hc as (H1 & H2 & H3 & H4). pose proof Hf as Hf'. apply list.Forall_cons in Hf as [[Hi Ha] Hr]. cbn [fst snd] in *.
  destruct n as [|n]; [cbn in Hn; lia|]. cbn [hdi sm_walk].
  rewrite (proj2 (N.eqb_neq i 0)) by lia. rewrite H2, get_addr_top by done.
  unfold get_links. rewrite H1. rewrite read_links; [|done|by apply hdi_fits].
  rewrite (IH i); [done|done|lia|done|cbn in Hn; lia].
Qed.

Lemma chain_links s p i a q : fits_nodes (p ++ (i, a) :: q) -> chain s 0 (p ++ (i, a) :: q) 0 ->
  get_links b i s = Some (lasti p 0, hdi q 0).
Proof.
  intros Hf [_ Hc]%chain_app. cbn [chain] in Hc. destruct Hc as (H1 & _).
  apply list.Forall_app in Hf as [Hp Hq]. apply list.Forall_cons in Hq as [_ Hq].
  unfold get_links. rewrite H1. apply read_links; [by apply lasti_fits|by apply hdi_fits].
Qed.

(** re-linking the last or the first node of a segment *)
Lemma relink_last s p j z prev next next' :
  fits_nodes (p ++ [(j, z)]) -> NoDup (map fst (p ++ [(j, z)])) ->
  chain s prev (p ++ [(j, z)]) next -> chain (put_links b j (lasti p prev) next' s) prev (p ++ [(j, z)]) next'.
Proof.
  intros Hf Hn Hc. apply chain_app in Hc as [H1 H2]. apply chain_app. cbn [chain hdi] in *.
  destruct H2 as (H2 & H3 & H4 & _).
  apply list.Forall_app in Hf as [Hp Hq]. apply list.Forall_cons in Hq as [[Hj Hz] _]. cbn [fst snd] in *.
  rewrite map_app in Hn. apply NoDup_app in Hn as (_ & Hn & _).
  unfold put_links. split.
  - revert H1. apply chain_frame. intros i a Hi.
    assert (i <> j) as Hij.
    { intros ->. apply (Hn j); [|left]. apply elem_of_list_fmap. by exists (j, a). }
    pose proof (proj1 (list.Forall_forall _ _) Hp _ Hi) as Hia. cbn [fst snd] in Hia.
    rewrite !put_nk; cbn; try lia; try congruence. done.
  - rewrite put_same. split; [done|]. rewrite !put_nk; cbn; try lia; try congruence. done.
Qed.
Lemma relink_first s q j z prev prev' next :
  fits_nodes ((j, z) :: q) -> NoDup (map fst ((j, z) :: q)) ->
  chain s prev ((j, z) :: q) next -> chain (put_links b j prev' (hdi q next) s) prev' ((j, z) :: q) next.
Proof.
  intros Hf Hn Hc. cbn [chain] in *. destruct Hc as (H1 & H2 & H3 & H4).
  apply list.Forall_cons in Hf as [[Hj Hz] Hq]. cbn [fst snd] in *.
  cbn [map] in Hn. apply list.NoDup_cons in Hn as [Hn _].
  unfold put_links. rewrite put_same. split; [done|]. rewrite !put_nk; cbn; try lia; try congruence.
  split; [done|]. split; [done|]. revert H4. apply chain_frame. intros i a Hi.
  assert (i <> j) as Hij.
  { intros ->. apply Hn, elem_of_list_fmap. by exists (j, a). }
  pose proof (proj1 (list.Forall_forall _ _) Hq _ Hi) as Hia. cbn [fst snd] in Hia.
  rewrite !put_nk; cbn; try lia; try congruence. done.
Qed.

(** The storage holds the list [l]; node numbers up to [m] have been used. *)
Definition holds_nodes (s : store) (ps : list (N * addr)) (m : N) : Prop :=
  fits_nodes ps /\ NoDup (map fst ps) /\ NoDup (map snd ps) /\ Forall (fun x => fst x <= m) ps
  /\ N.of_nat (length ps) <= m /\ m < 2 ^ 32 /\ chain s 0 ps 0
  /\ s (nk b NInfo) = match ps with [] => [] | _ => be 4 (N.of_nat (length ps)) ++ be 4 (hdi ps 0) ++ be 4 (lasti ps 0) ++ be 4 m end
  /\ (forall a, a < 2 ^ 256 -> a ∉ map snd ps -> s (nk b (NId a)) = [])
  /\ (forall i, i < 2 ^ 32 -> i ∉ map fst ps -> s (nk b (NLinks i)) = [] /\ s (nk b (NValue i)) = []).
Definition holds_set (s : store) (l : list addr) (n : N) : Prop :=
  exists ps m, l = map snd ps /\ m <= n /\ holds_nodes s ps m.

Lemma info_nodes s ps m : holds_nodes s ps m ->
  get_info b s = Some (Qinfo (N.of_nat (length ps)) (hdi ps 0) (lasti ps 0) (match ps with [] => 0 | _ => m end)).
Proof.
  intros (Hf & _ & _ & _ & Hl & Hm & _ & Hi & _). unfold get_info. rewrite Hi.
  destruct ps as [|[i a] r]; [done|]. set (ps := (i, a) :: r) in *.
  destruct (be 4 (N.of_nat (length ps)) ++ be 4 (hdi ps 0) ++ be 4 (lasti ps 0) ++ be 4 m) eqn:E.
  { apply (f_equal length) in E. rewrite !app_length, !be_length in E. discriminate E. }
  rewrite <- E. unfold whole, rd. rewrite read_be_app by (cbn in *; lia).
  rewrite read_be_app by (by apply hdi_fits). rewrite read_be_app by (by apply lasti_fits).
  rewrite <- (app_nil_r (be 4 m)), read_be_app by done. done.
Qed.
Lemma id_in s ps m i a : holds_nodes s ps m -> (i, a) ∈ ps -> get_id b a s = Some i.
Proof.
  intros (Hf & _ & _ & _ & _ & _ & Hc & _) Hin. apply elem_of_list_split in Hin as (p & q & ->).
  apply chain_app in Hc as [_ Hc]. cbn [chain] in Hc. destruct Hc as (_ & _ & H3 & _).
  apply list.Forall_app in Hf as [_ Hf]. apply list.Forall_cons in Hf as [[Hi _] _]. cbn in Hi.
  unfold get_id. rewrite H3. apply get_int_top. cbn. lia.
Qed.
Lemma id_out s ps m a : holds_nodes s ps m -> a < 2 ^ 256 -> a ∉ map snd ps -> get_id b a s = Some 0.
Proof. intros (_ & _ & _ & _ & _ & _ & _ & _ & Ho & _) Ha Hn. unfold get_id. by rewrite Ho. Qed.

Lemma chain_put x v s prev (ps : list (N * addr)) next : fits_node x -> fits_nodes ps ->
  match x with NInfo => True | NLinks i | NValue i => i ∉ map fst ps | NId a => a ∉ map snd ps end ->
  chain s prev ps next -> chain (put (nk b x) v s) prev ps next.
Proof.
  intros Hx Hf Hn. apply chain_frame. intros i a Hi.
  pose proof (proj1 (list.Forall_forall _ _) Hf _ Hi) as Hia. cbn [fst snd] in Hia.
  assert (i ∈ map fst ps) by (apply elem_of_list_fmap; by exists (i, a)).
  assert (a ∈ map snd ps) by (apply elem_of_list_fmap; by exists (i, a)).
  rewrite !put_nk; [done|..]; try done; try (cbn; lia); intros <-; contradiction.
Qed.
Lemma not_used (ps : list (N * addr)) i m : Forall (fun x => fst x <= m) ps -> m < i -> i ∉ map fst ps.
Proof.
  intros Hf Hm Hin. apply elem_of_list_fmap in Hin as (x & -> & Hx).
  pose proof (proj1 (list.Forall_forall _ _) Hf _ Hx) as Hx'. cbn in Hx'. lia.
Qed.

Definition untouched (s s' : store) : Prop := forall k, (forall x, fits_node x -> k <> nk b x) -> s' k = s k.

Lemma insert_in a l : a ∈ l -> set_insert a l = l.
Proof. intros H. unfold set_insert. by rewrite (proj2 (existsb_exists _ _)) by (exists a; split; [by apply elem_of_list_In|apply N.eqb_refl]). Qed.
Lemma insert_out a l : a ∉ l -> set_insert a l = l ++ [a].
Proof.
  intros H. unfold set_insert. destruct (existsb (N.eqb a) l) eqn:E; [|done].
  apply existsb_exists in E as (x & Hx & Hax). apply N.eqb_eq in Hax as ->. by destruct H; apply elem_of_list_In.
Qed.

Lemma sm_insert_ok s l n a : holds_set s l n -> n + 1 < 2 ^ 32 -> a < 2 ^ 256 ->
  exists s', sm_insert b a s = Some s' /\ holds_set s' (set_insert a l) (n + 1) /\ untouched s s'.
Proof.
  intros (ps & m & -> & Hmn & Hh) Hn Ha. unfold sm_insert.
  destruct (decide (a ∈ map snd ps)) as [Hin|Hout].
  - pose proof Hin as Hin'. apply elem_of_list_fmap in Hin as ([i z] & Haz & Hi). cbn in Haz. subst z.
    rewrite (id_in _ _ _ _ _ Hh Hi), (info_nodes _ _ _ Hh).
    assert (0 < i). { destruct Hh as (Hf & _). pose proof (proj1 (list.Forall_forall _ _) Hf _ Hi) as Hx. cbn in Hx. lia. }
    rewrite (proj2 (N.eqb_neq i 0)) by lia. exists s. split; [done|]. split; [|done].
    rewrite insert_in by done. exists ps, m. split; [done|]. split; [lia|done].
  - rewrite (id_out _ _ _ _ Hh Ha Hout), (info_nodes _ _ _ Hh). cbn [N.eqb q_new q_len q_back q_front].
    rewrite insert_out by done.
    pose proof Hh as (Hf & Hn1 & Hn2 & Hle & Hlen & Hm & Hc & Hi & Ho & Hw).
    set (new := match ps with [] => 0 | _ => m end).
    assert (new <= m) by (unfold new; destruct ps; lia).
    rewrite (N.mod_small (new + 1)) by (unfold U32; lia).
    assert (Forall (fun x : N * addr => fst x <= new) ps) as Hle' by (unfold new; destruct ps; [constructor|done]).
    assert (N.of_nat (length ps) <= new) as Hlen' by (unfold new; destruct ps; [cbn; lia|done]).
    set (id := new + 1). assert (id ∉ map fst ps) as Hid by (apply (not_used ps id new); [done|unfold id; lia]).
    assert (exists s1, (if N.of_nat (length ps) =? 0 then Some s
          else match get_links b (lasti ps 0) s with Some (p, _) => Some (put_links b (lasti ps 0) p id s) | None => None end) = Some s1
        /\ chain s1 0 ps id /\ untouched s s1 /\ (forall z, z < 2 ^ 256 -> s1 (nk b (NId z)) = s (nk b (NId z)))
        /\ (forall j, j < 2 ^ 32 -> j ∉ map fst ps -> s1 (nk b (NLinks j)) = s (nk b (NLinks j)) /\ s1 (nk b (NValue j)) = s (nk b (NValue j)))) as (s1 & -> & Hc1 & Hu1 & Ho1 & Hw1).
    { destruct ps as [|x r] using rev_ind.
      - exists s. done.
      - clear IHr. destruct x as [j z]. rewrite app_length. cbn [length]. rewrite (proj2 (N.eqb_neq _ 0)) by lia.
        rewrite lasti_app, (chain_links _ _ _ _ _ Hf Hc). eexists. split; [done|].
        split; [by eapply relink_last|].
        assert (j < 2 ^ 32). { apply list.Forall_app in Hf as [_ Hf]. apply list.Forall_cons in Hf as [[Hj _] _]. cbn in Hj. lia. }
        split; [intros k Hk; unfold put_links; apply put_other; by apply Hk|].
        split; [intros z' Hz'; unfold put_links; by rewrite put_nk|].
        intros k Hk Hkn. rewrite map_app in Hkn. apply not_elem_of_app in Hkn as [_ Hkn]. cbn [map fst] in Hkn.
        assert (k <> j) by (intros ->; apply Hkn; left). unfold put_links. rewrite !put_nk; [done|cbn; done || congruence..]. }
    eexists. split; [done|].
    assert (fits_nodes (ps ++ [(id, a)])) as Hf2.
    { apply list.Forall_app. split; [done|]. constructor; [|constructor]. cbn. unfold id. lia. }
    assert (id < 2 ^ 32) as Hid32 by (unfold id; lia).
    split.
    + exists (ps ++ [(id, a)]), id. rewrite !map_app. split; [done|]. split; [unfold id; lia|].
      unfold holds_nodes. rewrite !map_app. split; [done|].
      split. { apply NoDup_app. repeat split; [done| |apply NoDup_singleton]. intros x Hx Hx'. apply elem_of_list_singleton in Hx' as ->. done. }
      split. { apply NoDup_app. repeat split; [done| |apply NoDup_singleton]. intros x Hx Hx'. apply elem_of_list_singleton in Hx' as ->. done. }
      split. { apply list.Forall_app. split; [|constructor; [cbn; lia|constructor]]. eapply list.Forall_impl; [exact Hle'|]. cbn. unfold id. intros x. lia. }
      rewrite app_length. cbn [length].
      split; [unfold id; lia|]. split; [done|].
      split.
      { apply chain_app. unfold put_info, put_links. cbn [chain hdi]. split.
        - repeat (apply chain_put; [done|done|done|]). done.
        - assert (lasti ps 0 = (if N.of_nat (length ps) =? 0 then 0 else lasti ps 0)) as Hlast by (by destruct ps).
          rewrite <- Hlast. split; [|split; [|split; [|done]]].
          + rewrite !(put_nk (NId a)), !(put_nk NInfo), !(put_nk (NValue id)), put_same by done. done.
          + rewrite !(put_nk (NId a)), !(put_nk NInfo), put_same by done. done.
          + by rewrite put_same. }
      split.
      { unfold put_info. rewrite (put_nk (NId a)) by done. rewrite put_same. cbn [q_len q_front q_back q_new].
        rewrite N.mod_small by (unfold U32; lia).
        rewrite (proj2 (N.eqb_neq (N.of_nat (length ps) + 1) 0)) by lia.
        rewrite lasti_app, hdi_app. cbn [hdi].
        replace (N.of_nat (length ps + 1)) with (N.of_nat (length ps) + 1) by lia.
        destruct ps as [|[j z] r]; [done|]. cbn [app hdi]. done. }
      split.
      { intros z Hz Hnz. apply not_elem_of_app in Hnz as [Hz1 Hz2].
      assert (z <> a) by (intros ->; apply Hz2; left).
      unfold put_info, put_links. rewrite !put_nk; [|cbn; done || congruence..].
      rewrite Ho1 by done. by apply Ho. }
      intros k Hk Hnk. apply not_elem_of_app in Hnk as [Hk1 Hk2]. cbn [map fst] in Hk2.
      assert (k <> id) by (intros ->; apply Hk2; left).
      unfold put_info, put_links. rewrite !put_nk; [|cbn; done || congruence..].
      destruct (Hw1 k Hk Hk1) as [-> ->]. by apply Hw.
    + intros k Hk. unfold put_info, put_links. rewrite !put_other by (by apply Hk). by apply Hu1.
Qed.

Lemma remove_out a l : a ∉ l -> set_remove a l = l.
Proof.
  intros H. unfold set_remove. induction l as [|x l IH]; [done|]. apply not_elem_of_cons in H as [H1 H2].
  cbn [List.filter]. rewrite (proj2 (N.eqb_neq a x)) by done. cbn [negb]. by rewrite IH.
Qed.
Lemma remove_in a l r : a ∉ l -> a ∉ r -> set_remove a (l ++ a :: r) = l ++ r.
Proof.
  intros H1 H2. unfold set_remove. rewrite List.filter_app. cbn [List.filter]. rewrite N.eqb_refl. cbn [negb].
  fold (set_remove a l) (set_remove a r). by rewrite !remove_out.
Qed.

Lemma sm_remove_ok s l n a : holds_set s l n -> a < 2 ^ 256 ->
  exists s', sm_remove b a s = Some s' /\ holds_set s' (set_remove a l) n /\ untouched s s'.
Proof.
  intros (ps & m & -> & Hmn & Hh) Ha. unfold sm_remove.
  destruct (decide (a ∈ map snd ps)) as [Hin|Hout].
  2:{ rewrite (id_out _ _ _ _ Hh Ha Hout). cbn [N.eqb]. exists s. split; [done|]. split; [|done].
      rewrite remove_out by done. by exists ps, m. }
  apply elem_of_list_fmap in Hin as ([i z] & Haz & Hi). cbn in Haz. subst z.
  rewrite (id_in _ _ _ _ _ Hh Hi), (info_nodes _ _ _ Hh). cbn [q_new q_len q_back q_front].
  apply elem_of_list_split in Hi as (p & q & ->).
  pose proof Hh as (Hf & Hn1 & Hn2 & Hle & Hlen & Hm & Hc & Hinfo & Ho & Hw).
  rewrite map_app in Hw. cbn [map fst] in Hw.
  pose proof Hf as Hf0. apply list.Forall_app in Hf0 as [Hfp Hfq]. apply list.Forall_cons in Hfq as [[Hi _] Hfq]. cbn [fst snd] in Hi.
  rewrite (proj2 (N.eqb_neq i 0)) by lia. rewrite (chain_links _ _ _ _ _ Hf Hc).
  rewrite map_app in Hn1, Hn2. cbn [map fst snd] in Hn1, Hn2.
  pose proof Hn1 as (Hp1 & Hd1 & Hq1)%NoDup_app. pose proof Hn2 as (Hp2 & Hd2 & Hq2)%NoDup_app.
  apply list.NoDup_cons in Hq1 as [Hiq Hq1]. apply list.NoDup_cons in Hq2 as [Haq Hq2].
  assert (i ∉ map fst p) as Hip by (intros H; apply (Hd1 i H); left).
  assert (a ∉ map snd p) as Hap by (intros H; apply (Hd2 a H); left).
  pose proof Hc as Hc0. apply chain_app in Hc0 as [Hcp Hcq]. cbn [chain hdi] in Hcp, Hcq. destruct Hcq as (_ & _ & _ & Hcq).
  (* the nodes before *)
  assert (exists s1, (if lasti p 0 =? 0 then Some s
      else match get_links b (lasti p 0) s with Some (pp, _) => Some (put_links b (lasti p 0) pp (hdi q 0) s) | None => None end) = Some s1
    /\ chain s1 0 p (hdi q 0) /\ chain s1 i q 0 /\ untouched s s1
    /\ (forall z, z < 2 ^ 256 -> s1 (nk b (NId z)) = s (nk b (NId z)))
    /\ (forall j, j < 2 ^ 32 -> j ∉ map fst p -> s1 (nk b (NLinks j)) = s (nk b (NLinks j)))
    /\ (forall j, j < 2 ^ 32 -> s1 (nk b (NValue j)) = s (nk b (NValue j)))) as (s1 & -> & Hc1 & Hc1' & Hu1 & Ho1 & Hw1 & Hv1).
  { destruct p as [|x r] using rev_ind.
    - exists s. done.
    - clear IHr. destruct x as [j z]. rewrite lasti_app.
      pose proof Hfp as Hfp0. apply list.Forall_app in Hfp0 as [_ Hfj]. apply list.Forall_cons in Hfj as [[Hj Hz] _]. cbn [fst snd] in Hj, Hz.
      rewrite (proj2 (N.eqb_neq j 0)) by lia.
      pose proof Hc as Hc2. pose proof Hf as Hf2. rewrite <- app_assoc in Hc2, Hf2. cbn [app] in Hc2, Hf2.
      rewrite (chain_links _ _ _ _ _ Hf2 Hc2). eexists. split; [done|].
      split; [by eapply relink_last|].
      split. { apply chain_put; [cbn; lia|done| |done]. intros H. apply (Hd1 j); [|by right]. rewrite map_app. apply elem_of_app. right. left. }
      split; [intros k Hk; unfold put_links; apply put_other; apply Hk; cbn; lia|].
      split; [intros z' Hz'; unfold put_links; rewrite put_nk; [done|cbn; lia|done|done]|].
      split.
      + intros k Hk Hkn. rewrite map_app in Hkn. apply not_elem_of_app in Hkn as [_ Hkn]. cbn [map fst] in Hkn.
        assert (k <> j) by (intros ->; apply Hkn; left). unfold put_links. rewrite put_nk; [done|cbn; lia || congruence..].
      + intros k Hk. unfold put_links. rewrite put_nk; [done|cbn; lia || done..]. }
  (* the nodes after *)
  assert (exists s2, (if hdi q 0 =? 0 then Some s1
      else match get_links b (hdi q 0) s1 with Some (_, nn) => Some (put_links b (hdi q 0) (lasti p 0) nn s1) | None => None end) = Some s2
    /\ chain s2 0 p (hdi q 0) /\ chain s2 (lasti p 0) q 0 /\ untouched s s2
    /\ (forall z, z < 2 ^ 256 -> s2 (nk b (NId z)) = s (nk b (NId z)))
    /\ (forall j, j < 2 ^ 32 -> j ∉ map fst p -> j ∉ map fst q -> s2 (nk b (NLinks j)) = s (nk b (NLinks j)))
    /\ (forall j, j < 2 ^ 32 -> s2 (nk b (NValue j)) = s (nk b (NValue j)))) as (s2 & -> & Hc2 & Hc2' & Hu2 & Ho2 & Hw2 & Hv2).
  { destruct q as [|[j z] r].
    - cbn [hdi N.eqb]. exists s1. repeat (split; [done|]). split; [intros k Hk Hkn _; by apply Hw1|done].
    - cbn [hdi] in *. pose proof Hfq as Hfq0. apply list.Forall_cons in Hfq0 as [[Hj Hz] Hfr]. cbn [fst snd] in Hj, Hz.
      rewrite (proj2 (N.eqb_neq j 0)) by lia.
      assert (get_links b j s1 = Some (i, hdi r 0)) as ->.
      { cbn [chain] in Hc1'. destruct Hc1' as (H1 & _). unfold get_links. rewrite H1. apply read_links; [lia|by apply hdi_fits]. }
      eexists. split; [done|].
      split. { apply chain_put; [cbn; lia|done| |done]. intros H. apply (Hd1 j H). right. left. }
      split; [by eapply relink_first|].
      split; [intros k Hk; unfold put_links; rewrite put_other by (apply Hk; cbn; lia); by apply Hu1|].
      split; [intros z' Hz'; unfold put_links; rewrite put_nk; [by apply Ho1|cbn; lia|done|done]|].
      split.
      + intros k Hk Hkp Hkn. cbn [map fst] in Hkn. assert (k <> j) by (intros ->; apply Hkn; left).
        unfold put_links. rewrite put_nk; [by apply Hw1|cbn; lia || congruence..].
      + intros k Hk. unfold put_links. rewrite put_nk; [by apply Hv1|cbn; lia || done..]. }
  assert (i < 2 ^ 32) as Hi32 by lia.
  eexists. split; [done|]. split.
  - exists (p ++ q), m. rewrite !map_app. split; [cbn [map snd]; by apply remove_in|]. split; [done|].
    unfold holds_nodes. rewrite !map_app. split; [by apply list.Forall_app|].
    split. { apply NoDup_app. split; [done|]. split; [|done]. intros x Hx Hx'. apply (Hd1 x Hx). by right. }
    split. { apply NoDup_app. split; [done|]. split; [|done]. intros x Hx Hx'. apply (Hd2 x Hx). by right. }
    split. { apply list.Forall_app in Hle as [L1 L2]. apply list.Forall_cons in L2 as [_ L2]. by apply list.Forall_app. }
    rewrite app_length in *. cbn [length] in Hlen.
    split; [lia|]. split; [done|].
    split. { apply chain_app. unfold put_info. split; repeat (apply chain_put; [done|done|done|]); done. }
    split.
    { unfold put_info. rewrite (put_nk (NId a)) by done. rewrite put_same. cbn [q_len q_front q_back q_new length].
      rewrite ?app_length; cbn [length]; replace (N.of_nat (length p + S (length q)) - 1) with (N.of_nat (length p + length q)) by lia.
      destruct p as [|[j z] p].
      - destruct q as [|[j z] q]; [done|]. cbn [length app hdi lasti Nat.add]. 
        rewrite (proj2 (N.eqb_neq (N.of_nat _) 0)) by lia. cbn [hdi].
        apply list.Forall_cons in Hfq as [[Hj _] _]. cbn [fst] in Hj. rewrite (proj2 (N.eqb_neq j 0)) by lia. done.
      - cbn [length app hdi lasti Nat.add]. rewrite (proj2 (N.eqb_neq (N.of_nat _) 0)) by lia.
        assert (lasti p j <> 0) as Hlp.
        { apply list.Forall_cons in Hfp as [[Hj _] Hfp]. cbn [fst] in Hj. clear -Hj Hfp. revert j Hj Hfp.
          induction p as [|[j' z'] p IH]; intros j Hj Hfp; cbn [lasti]; [lia|]. apply list.Forall_cons in Hfp as [[Hj' _] Hfp]. by apply IH. }
        rewrite (proj2 (N.eqb_neq _ 0)) by done.
        destruct q as [|[j' z'] q].
        + cbn [hdi N.eqb]. by rewrite !app_nil_r.
        + cbn [hdi]. apply list.Forall_cons in Hfq as [[Hj' _] _]. cbn [fst] in Hj'. rewrite (proj2 (N.eqb_neq j' 0)) by lia.
          assert (forall d d', lasti (p ++ (j', z') :: q) d = lasti (p ++ (i, a) :: (j', z') :: q) d') as Hl.
          { clear. induction p as [|[u v] p IH]; intros d d'; cbn [lasti app]; [done|]. apply IH. }
          by rewrite (Hl j j). }
    split.
    { intros z Hz Hnz. unfold put_info.
    destruct (decide (z = a)) as [->|Hza]; [by rewrite put_same|].
    rewrite !put_nk; [|cbn; done || congruence..]. rewrite Ho2 by done. apply Ho; [done|].
    rewrite map_app. cbn [map snd]. apply not_elem_of_app in Hnz as [Hz1 Hz2].
    apply not_elem_of_app. split; [done|]. apply not_elem_of_cons. by split. }
    intros k Hk Hnk. apply not_elem_of_app in Hnk as [Hk1 Hk2]. unfold put_info.
    rewrite !(put_nk (NId a)), !(put_nk NInfo) by done.
    destruct (decide (k = i)) as [->|Hki].
    { rewrite put_same, (put_nk (NValue i)), put_same by done. done. }
    rewrite !put_nk; [|cbn; done || congruence..]. rewrite Hw2, Hv2 by done. apply Hw; [done|].
    apply not_elem_of_app. split; [done|]. by apply not_elem_of_cons.
  - intros k Hk. unfold put_info. rewrite !put_other by (by apply Hk). by apply Hu2.
Qed.

Lemma sm_items_ok s l n : holds_set s l n -> sm_items b s = Some l /\ sm_len b s = Some (N.of_nat (length l)).
Proof.
  intros (ps & m & -> & Hmn & Hh). unfold sm_items, sm_len. rewrite (info_nodes _ _ _ Hh). cbn [q_len q_front].
  destruct Hh as (Hf & _ & _ & _ & _ & _ & Hc & _). rewrite Nat2N.id, map_length. split; [|done].
  apply (walk_chain s ps 0 Hf eq_refl Hc). lia.
Qed.
Lemma sm_contains_ok s l n a : holds_set s l n -> a < 2 ^ 256 -> sm_contains b a s = Some (bool_decide (a ∈ l)).
Proof.
  intros (ps & m & -> & Hmn & Hh) Ha. unfold sm_contains.
  destruct (decide (a ∈ map snd ps)) as [Hin|Hout].
  - rewrite bool_decide_eq_true_2 by done. apply elem_of_list_fmap in Hin as ([i z] & Haz & Hi). cbn in Haz. subst z.
    rewrite (id_in _ _ _ _ _ Hh Hi). destruct Hh as (Hf & _).
    pose proof (proj1 (list.Forall_forall _ _) Hf _ Hi) as Hx. cbn in Hx. rewrite (proj2 (N.eqb_neq i 0)) by lia. done.
  - rewrite bool_decide_eq_false_2 by done. by rewrite (id_out _ _ _ _ Hh Ha Hout).
Qed.
Lemma holds_set_start s : (forall x, fits_node x -> s (nk b x) = []) -> holds_set s [] 0.
Proof.
  intros H. exists [], 0. split; [done|]. split; [done|]. unfold holds_nodes. cbn.
  split; [constructor|]. split; [constructor|]. split; [constructor|]. split; [constructor|].
  split; [done|]. split; [done|]. split; [done|]. split; [by apply H|]. split; [intros a Ha _; by apply H|].
  intros i Hi _. by split; apply H.
Qed.
Lemma holds_set_frame s s' l n : (forall x, fits_node x -> s' (nk b x) = s (nk b x)) -> holds_set s l n -> holds_set s' l n.
Proof.
  intros H (ps & m & -> & Hmn & Hh). exists ps, m. split; [done|]. split; [done|].
  destruct Hh as (Hf & Hn1 & Hn2 & Hle & Hlen & Hm & Hc & Hi & Ho & Hw). repeat (split; [done|]).
  split. { revert Hc. apply chain_frame. intros i a Hia. pose proof (proj1 (list.Forall_forall _ _) Hf _ Hia) as Hx. cbn in Hx.
    rewrite !H by (cbn; lia). done. }
  split; [by rewrite H|]. split; [intros a Ha Hna; rewrite H by done; by apply Ho|].
  intros i Hii Hna. rewrite !H by done. by apply Hw.
Qed.
End SetMapper.

(** ** UnorderedSetMapper *)
Section UnorderedSetMapper.
Variable b : bytes.

Lemma sk_inj x y : fits_slot x -> fits_slot y -> sk b x = sk b y -> x = y.
Proof. intros Hx Hy E. apply slot_key_inj; [done..|]. exact (app_inv_head _ _ _ E). Qed.
Lemma put_sk x v s y : fits_slot x -> fits_slot y -> y <> x -> put (sk b x) v s (sk b y) = s (sk b y).
Proof. intros Hx Hy Hn. apply put_other. intros E. by apply Hn, sk_inj. Qed.

Definition holds_vec (s : store) (l : list addr) : Prop :=
  NoDup l /\ Forall (fun a => a < 2 ^ 256) l /\ N.of_nat (length l) < 2 ^ 32
  /\ s (sk b SLen) = top_num (N.of_nat (length l))
  /\ (forall i a, l !! i = Some a -> s (sk b (SItem (N.of_nat i + 1))) = top_addr a
        /\ s (sk b (SIndex a)) = top_num (N.of_nat i + 1))
  /\ (forall a, a < 2 ^ 256 -> a ∉ l -> s (sk b (SIndex a)) = [])
  /\ (forall i, i < 2 ^ 32 -> i = 0 \/ N.of_nat (length l) < i -> s (sk b (SItem i)) = []).
Definition vec_untouched (s s' : store) : Prop := forall k, (forall x, fits_slot x -> k <> sk b x) -> s' k = s k.

Lemma us_len_ok s l : holds_vec s l -> us_len b s = Some (N.of_nat (length l)).
Proof. intros (_ & _ & Hl & Hs & _). unfold us_len. rewrite Hs. apply get_int_top. exact Hl. Qed.
Lemma us_index_in s l i a : holds_vec s l -> l !! i = Some a -> us_index b a s = Some (N.of_nat i + 1).
Proof.
  intros (_ & _ & Hl & _ & Hi & _) Ha. unfold us_index. rewrite (proj2 (Hi i a Ha)). apply get_int_top.
  apply lookup_lt_Some in Ha. cbn. lia.
Qed.
Lemma us_index_out s l a : holds_vec s l -> a < 2 ^ 256 -> a ∉ l -> us_index b a s = Some 0.
Proof. intros (_ & _ & _ & _ & _ & Ho & _) Ha Hn. unfold us_index. by rewrite Ho. Qed.
Lemma us_contains_ok s l a : holds_vec s l -> a < 2 ^ 256 -> us_contains b a s = Some (bool_decide (a ∈ l)).
Proof.
  intros Hh Ha. unfold us_contains. destruct (decide (a ∈ l)) as [Hin|Hout].
  - rewrite bool_decide_eq_true_2 by done. apply elem_of_list_lookup in Hin as [i Hi].
    rewrite (us_index_in _ _ _ _ Hh Hi), (proj2 (N.eqb_neq _ 0)) by lia. done.
  - rewrite bool_decide_eq_false_2 by done. by rewrite (us_index_out _ _ _ Hh Ha Hout).
Qed.
Lemma us_walk_ok s l : holds_vec s l -> forall r p, l = p ++ r -> us_walk b (length r) (N.of_nat (length p) + 1) s = Some r.
Proof.
  intros (_ & Hf & _ & _ & Hi & _). induction r as [|a r IH]; intros p Hl; [done|].
  cbn [length us_walk]. assert (l !! length p = Some a) as Ha by (rewrite Hl; by apply list_lookup_middle).
  rewrite (proj1 (Hi _ _ Ha)), get_addr_top by (by apply (proj1 (list.Forall_lookup _ _) Hf _ _ Ha)).
  specialize (IH (p ++ [a])). rewrite <- app_assoc, app_length in IH. cbn [length app] in IH.
  replace (N.of_nat (length p) + 1 + 1) with (N.of_nat (length p + 1) + 1) by lia. by rewrite IH.
Qed.
Lemma us_items_ok s l : holds_vec s l -> us_items b s = Some l.
Proof.
  intros Hh. unfold us_items. rewrite (us_len_ok _ _ Hh), Nat2N.id. by apply (us_walk_ok s l Hh l []).
Qed.

Lemma us_insert_ok s l a : holds_vec s l -> a < 2 ^ 256 -> N.of_nat (length l) + 1 < 2 ^ 32 ->
  exists s', us_insert b a s = Some s' /\ holds_vec s' (set_insert a l) /\ vec_untouched s s'.
Proof.
  intros Hh Ha Hlen. unfold us_insert. rewrite (us_len_ok _ _ Hh).
  destruct (decide (a ∈ l)) as [Hin|Hout].
  - rewrite insert_in by done. apply elem_of_list_lookup in Hin as [i Hi].
    rewrite (us_index_in _ _ _ _ Hh Hi), (proj2 (N.eqb_neq _ 0)) by lia. by exists s.
  - rewrite insert_out by done. rewrite (us_index_out _ _ _ Hh Ha Hout). cbn [N.eqb].
    rewrite N.mod_small by exact Hlen. destruct Hh as (Hn & Hf & Hl & Hs & Hi & Ho & Hw).
    set (m := N.of_nat (length l) + 1) in *. eexists. split; [done|]. split.
    + split. { apply NoDup_app. repeat split; [done| |apply NoDup_singleton]. intros x Hx Hx'. apply elem_of_list_singleton in Hx' as ->. done. }
      split. { apply list.Forall_app. split; [done|]. by constructor. }
      rewrite app_length. cbn [length]. split; [lia|].
      split. { rewrite (put_sk (SIndex a)) by done. rewrite put_same. f_equal. unfold m. lia. }
      split.
      { intros i x Hx. assert (i < length (l ++ [a]))%nat as Hil by (by apply lookup_lt_Some in Hx). rewrite app_length in Hil. cbn [length] in Hil.
        apply lookup_app_Some in Hx as [Hx|[Hge Hx]].
        - assert (x ∈ l) by (by eapply elem_of_list_lookup_2). assert (x <> a) by (intros ->; contradiction).
          assert (x < 2 ^ 256) by (by apply (proj1 (list.Forall_lookup _ _) Hf _ _ Hx)). assert (i < length l)%nat by (by eapply lookup_lt_Some).
          destruct (Hi _ _ Hx) as [G1 G2]. rewrite !put_sk; [by split|cbn; try done; try lia; try (intros [=]; unfold m in *; lia)..].
          all: cbn; try lia; congruence.
        - assert (i = length l) as -> by lia. rewrite Nat.sub_diag in Hx. injection Hx as <-.
          fold m. rewrite (put_sk (SIndex a)), (put_sk SLen), !put_same by done. done. }
      split.
      { intros x Hx Hnx. apply not_elem_of_app in Hnx as [H1 H2]. assert (x <> a) by (intros ->; apply H2; left).
        rewrite !put_sk; [by apply Ho|cbn; try done; congruence..]. }
      intros i Hi32 Hio. assert (i <> m) by (unfold m; lia).
      rewrite !put_sk; [|cbn; try done; congruence..]. apply Hw; [done|]. lia.
    + intros k Hk. rewrite !put_other by (by apply Hk). done.
Qed.

Lemma swap_remove_out a l : a ∉ l -> swap_remove a l = l.
Proof.
  intros H. unfold swap_remove. destruct (existsb (N.eqb a) l) eqn:E; [|done].
  apply existsb_exists in E as (x & Hx & Hax). apply N.eqb_eq in Hax as ->. by destruct H; apply elem_of_list_In.
Qed.
Lemma replace_at_app a z p q : a ∉ p -> replace_at a z (p ++ a :: q) = p ++ z :: q.
Proof.
  induction p as [|x p IH]; intros H; cbn [replace_at app].
  - by rewrite N.eqb_refl.
  - apply not_elem_of_cons in H as [H1 H2]. rewrite (proj2 (N.eqb_neq x a)) by congruence. by rewrite IH.
Qed.
Lemma swap_remove_last a l : a ∉ l -> swap_remove a (l ++ [a]) = l.
Proof.
  intros H. unfold swap_remove. rewrite (proj2 (existsb_exists _ _)).
  2:{ exists a. split; [|apply N.eqb_refl]. apply in_app_iff. right. by left. }
  rewrite List.last_last, replace_at_app by done. by rewrite removelast_last.
Qed.
Lemma swap_remove_inner a p q z : a ∉ p -> swap_remove a (p ++ a :: q ++ [z]) = p ++ z :: q.
Proof.
  intros H. unfold swap_remove. rewrite (proj2 (existsb_exists _ _)).
  2:{ exists a. split; [|apply N.eqb_refl]. apply in_app_iff. right. by left. }
  replace (p ++ a :: q ++ [z]) with ((p ++ a :: q) ++ [z]) by (by rewrite <- app_assoc).
  rewrite List.last_last, <- app_assoc. cbn [app]. rewrite replace_at_app by done.
  replace (p ++ z :: q ++ [z]) with ((p ++ z :: q) ++ [z]) by (by rewrite <- app_assoc).
  by rewrite removelast_last.
Qed.

Lemma us_remove_ok s l a : holds_vec s l -> a < 2 ^ 256 ->
  exists s', us_remove b a s = Some s' /\ holds_vec s' (swap_remove a l) /\ vec_untouched s s'.
Proof.
  intros Hh Ha. unfold us_remove. rewrite (us_len_ok _ _ Hh).
  destruct (decide (a ∈ l)) as [Hin|Hout].
  2:{ rewrite swap_remove_out by done. rewrite (us_index_out _ _ _ Hh Ha Hout). cbn [N.eqb]. by exists s. }
  apply elem_of_list_split in Hin as (p & q & ->).
  rewrite (us_index_in _ _ (length p) a Hh) by (by apply list_lookup_middle).
  rewrite (proj2 (N.eqb_neq _ 0)) by lia.
  pose proof Hh as (Hn & Hf & Hl & Hs & Hi & Ho & Hw).
  pose proof Hn as (Hnp & Hd & Hnq)%NoDup_app. apply list.NoDup_cons in Hnq as [Haq Hnq].
  assert (a ∉ p) as Hap by (intros H; apply (Hd a H); left).
  rewrite app_length in *. cbn [length] in *.
  destruct q as [|z q _] using rev_ind.
  - cbn [length] in *. rewrite (proj2 (N.eqb_eq _ _)) by lia. rewrite swap_remove_last by done.
    eexists. split; [done|]. split.
    + split; [done|]. apply list.Forall_app in Hf as [Hfp _]. split; [done|]. split; [lia|].
      split. { rewrite (put_sk (SIndex a)) by done. rewrite put_same. f_equal. lia. }
      split.
      { intros i x Hx. assert (x ∈ p) by (by eapply elem_of_list_lookup_2). assert (x <> a) by (intros ->; contradiction).
        assert (x < 2 ^ 256) by (by apply (proj1 (list.Forall_lookup _ _) Hfp _ _ Hx)).
        assert (i < length p)%nat by (by eapply lookup_lt_Some).
        destruct (Hi i x) as [G1 G2]; [by apply lookup_app_l_Some|].
        rewrite !put_sk; [by split|..]; cbn; try lia; try congruence; try done. intros [=]. lia. }
      split.
      { intros x Hx Hnx. destruct (decide (x = a)) as [->|Hxa]; [by rewrite put_same|].
        rewrite !put_sk; [|cbn; try done; try lia; congruence..]. apply Ho; [done|]. apply not_elem_of_app. split; [done|]. by apply not_elem_of_cons; split; [|apply not_elem_of_nil]. }
      intros i Hi32 Hio. rewrite (put_sk (SIndex a)), (put_sk SLen) by done.
      destruct (decide (i = N.of_nat (length p + 1))) as [->|Hne]; [by rewrite put_same|].
      rewrite put_sk; [|cbn; try lia; congruence..]. apply Hw; [done|]. rewrite ?app_length; cbn [length]. lia.
    + intros k Hk. rewrite !put_other; [done|apply Hk; cbn; lia || done..].
  - rewrite app_length in *. cbn [length] in *. rewrite (proj2 (N.eqb_neq _ _)) by lia. rewrite swap_remove_inner by done.
    set (n := N.of_nat (length p + S (length q + 1))) in *.
    assert ((p ++ a :: q ++ [z]) !! (length p + S (length q))%nat = Some z) as Hz.
    { rewrite lookup_app_r by lia. replace (length p + S (length q) - length p)%nat with (S (length q)) by lia. cbn. by apply list_lookup_middle. }
    apply list.Forall_app in Hf as [Hfp Hfq]. apply list.Forall_cons in Hfq as [_ Hfq]. apply list.Forall_app in Hfq as [Hfq Hfz].
    apply list.Forall_cons in Hfz as [Hz256 _].
    apply NoDup_app in Hnq as (Hnq & Hdz & _).
    assert (z ∉ q) as Hzq by (intros H; apply (Hdz z H); left).
    assert (z <> a) as Hza by (intros ->; apply Haq, elem_of_app; right; left).
    assert (z ∉ p) as Hzp by (intros H; apply (Hd z H); right; apply elem_of_app; right; left).
    assert (s (sk b (SItem n)) = top_addr z) as -> by (rewrite <- (proj1 (Hi _ _ Hz)); do 3 f_equal; unfold n; lia).
    rewrite get_addr_top by done.
    eexists. split; [done|]. split.
    + split.
      { apply NoDup_app. split; [done|]. split.
        - intros x Hx Hx'. apply elem_of_cons in Hx' as [->|Hx']; [done|]. apply (Hd x Hx). right. apply elem_of_app. by left.
        - apply list.NoDup_cons. done. }
      split. { apply list.Forall_app. split; [done|]. by constructor. }
      rewrite app_length. cbn [length]. split; [unfold n in *; lia|].
      split. { rewrite (put_sk (SIndex a)) by done. rewrite put_same. f_equal. unfold n. lia. }
      split.
      { intros i x Hx. assert (i < length (p ++ z :: q))%nat as Hil by (by eapply lookup_lt_Some). rewrite app_length in Hil. cbn [length] in Hil.
        destruct (decide (i = length p)) as [->|Hip].
        - rewrite list_lookup_middle in Hx by done. injection Hx as <-.
          rewrite (put_sk (SIndex a)), (put_sk SLen), (put_sk (SItem n)), (put_sk (SIndex z)), put_same; [|cbn; try lia; try done; try (intros [=]; unfold n in *; lia)..].
          rewrite (put_sk (SIndex a)), (put_sk SLen), (put_sk (SItem n)), put_same; [|cbn; try lia; try done; try congruence..]. done.
        - assert ((p ++ a :: q ++ [z]) !! i = Some x /\ x <> a /\ x <> z /\ x < 2 ^ 256) as (Hx' & Hxa & Hxz & Hx256).
          { apply lookup_app_Some in Hx as [Hx|[Hlt Hx]].
            - assert (x ∈ p) by (by eapply elem_of_list_lookup_2).
              split; [by apply lookup_app_l_Some|]. split; [by intros ->|]. split; [by intros ->|]. by apply (proj1 (list.Forall_lookup _ _) Hfp _ _ Hx).
            - destruct (i - length p)%nat as [|k] eqn:Ek; [lia|]. cbn in Hx.
              assert (x ∈ q) by (by eapply elem_of_list_lookup_2).
              split. { rewrite lookup_app_r by lia. rewrite Ek. cbn. by apply lookup_app_l_Some. }
              split. { intros ->. apply Haq, elem_of_app. by left. } split; [by intros ->|]. by apply (proj1 (list.Forall_lookup _ _) Hfq _ _ Hx). }
          destruct (Hi i x Hx') as [G1 G2].
          rewrite !put_sk; [by split|..]; cbn; try lia; try congruence; try done; intros [=]; unfold n in *; lia. }
      split.
      { intros x Hx Hnx. destruct (decide (x = a)) as [->|Hxa]; [by rewrite put_same|].
      apply not_elem_of_app in Hnx as [Hxp Hxq]. apply not_elem_of_cons in Hxq as [Hxz Hxq].
      rewrite !put_sk; [|cbn; try done; try lia; try congruence..].
      apply Ho; [done|]. apply not_elem_of_app. split; [done|]. apply not_elem_of_cons. split; [done|].
      apply not_elem_of_app. split; [done|]. by apply not_elem_of_cons; split; [|apply not_elem_of_nil]. }
      intros i Hi32 Hio. rewrite (put_sk (SIndex a)), (put_sk SLen) by done.
      destruct (decide (i = n)) as [->|Hne]; [by rewrite put_same|].
      rewrite put_sk; [|cbn; try lia; congruence..].
      rewrite !put_sk; [|cbn; try done; try lia; try (intros [=]; lia)..]. apply Hw; [done|]. rewrite ?app_length; cbn [length]. rewrite ?app_length; cbn [length]. unfold n in *. lia.
    + intros k Hk. rewrite !put_other; [done|apply Hk; cbn; lia || done..].
Qed.
Lemma holds_vec_start s : (forall x, fits_slot x -> s (sk b x) = []) -> holds_vec s [].
Proof.
  intros H. split; [constructor|]. split; [constructor|]. split; [done|]. split; [by apply H|].
  split; [done|]. split; [intros a Ha _; by apply H|]. intros i Hi _. by apply H.
Qed.
Lemma holds_vec_frame s s' l : (forall x, fits_slot x -> s' (sk b x) = s (sk b x)) -> holds_vec s l -> holds_vec s' l.
Proof.
  intros H (Hn & Hf & Hl & Hs & Hi & Ho & Hw). repeat (split; [done|]). split; [by rewrite H|].
  split; [|split].
  - intros i a Ha. pose proof (proj1 (list.Forall_lookup _ _) Hf _ _ Ha). assert (i < length l)%nat by (by eapply lookup_lt_Some).
    rewrite !H by (cbn; done || lia). by apply Hi.
  - intros a Ha Hna. rewrite H by done. by apply Ho.
  - intros i Hi32 Hio. rewrite H by done. by apply Hw.
Qed.
End UnorderedSetMapper.

(** ** Sequences of calls *)
Lemma each_app {A} (f : A -> store -> option store) l l' s s1 :
  each f l s = Some s1 -> each f (l ++ l') s = each f l' s1.
Proof.
  revert s; induction l as [|x l IH]; intros s; cbn [each app]; [by intros [= ->]|].
  destruct (f x s) as [s'|]; [apply IH|done].
Qed.
Lemma set_calls_ok b xs : forall s l n, holds_set b s l n -> n + inserts xs < 2 ^ 32 ->
  Forall (fun x => subject x < 2 ^ 256) xs ->
  exists s', each (set_call b) xs s = Some s' /\ holds_set b s' (fold_left set_change xs l) (n + inserts xs) /\ untouched b s s'.
Proof.
  induction xs as [|x xs IH]; intros s l n Hh Hn Hf.
  - exists s. split; [done|]. split; [|done]. unfold inserts. cbn. by rewrite N.add_0_r.
  - apply list.Forall_cons in Hf as [Hx Hf].
    assert (exists s1 m, set_call b x s = Some s1 /\ holds_set b s1 (set_change l x) m /\ untouched b s s1
      /\ m + inserts xs = n + inserts (x :: xs)) as (s1 & m & E & H1 & H2 & Hm).
    { destruct x as [a|a]; unfold inserts in *; cbn [List.filter length subject] in *.
      - destruct (sm_insert_ok b s l n a Hh ltac:(lia) Hx) as (s1 & E & H1 & H2). exists s1, (n + 1).
        repeat (split; [done|]). lia.
      - destruct (sm_remove_ok b s l n a Hh Hx) as (s1 & E & H1 & H2). by exists s1, n. }
    destruct (IH s1 (set_change l x) m H1 ltac:(lia) Hf) as (s' & E' & H1' & H2').
    exists s'. cbn [each fold_left]. rewrite E. split; [done|]. rewrite <- Hm. split; [done|].
    intros k Hk. rewrite H2', H2 by done. done.
Qed.
Fixpoint small (l : list addr) (xs : list change) : Prop :=
  match xs with [] => True | x :: r => N.of_nat (length (vec_change l x)) < 2 ^ 32 /\ small (vec_change l x) r end.
Lemma vec_insert_ok b s l a : holds_vec b s l -> a < 2 ^ 256 -> N.of_nat (length (set_insert a l)) < 2 ^ 32 ->
  exists s', us_insert b a s = Some s' /\ holds_vec b s' (set_insert a l) /\ vec_untouched b s s'.
Proof.
  intros Hh Ha Hl. destruct (decide (a ∈ l)) as [Hin|Hout].
  - rewrite insert_in by done. exists s. split; [|done]. pose proof Hin as Hin'. apply elem_of_list_lookup in Hin as [i Hi].
    unfold us_insert. rewrite (us_len_ok _ _ _ Hh), (us_index_in _ _ _ _ _ Hh Hi), (proj2 (N.eqb_neq _ 0)) by lia. done.
  - apply us_insert_ok; [done..|]. rewrite insert_out in Hl by done. rewrite app_length in Hl. cbn in Hl. lia.
Qed.
Lemma vec_calls_ok b xs : forall s l, holds_vec b s l -> small l xs ->
  Forall (fun x => subject x < 2 ^ 256) xs ->
  exists s', each (vec_call b) xs s = Some s' /\ holds_vec b s' (fold_left vec_change xs l) /\ vec_untouched b s s'.
Proof.
  induction xs as [|x xs IH]; intros s l Hh Hn Hf.
  - exists s. done.
  - apply list.Forall_cons in Hf as [Hx Hf]. cbn [small] in Hn. destruct Hn as [Hn Hs].
    assert (exists s1, vec_call b x s = Some s1 /\ holds_vec b s1 (vec_change l x) /\ vec_untouched b s s1)
      as (s1 & E & H1 & H2).
    { destruct x as [a|a]; cbn [subject vec_change vec_call] in *;
        [by apply vec_insert_ok|by apply us_remove_ok]. }
    destruct (IH s1 (vec_change l x) H1 Hs Hf) as (s' & E' & H1' & H2').
    exists s'. cbn [each fold_left]. rewrite E. split; [done|]. split; [done|].
    intros k Hk. rewrite H2', H2 by done. done.
Qed.
