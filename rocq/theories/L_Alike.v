(** L_Alike.v — renaming the accounts changes nothing else (C109). *)
From Verif Require Export Spec12.
From Verif Require Import L_Donate.

Definition rmap {A B} (g : A -> B) (x : res A) : res B := match x with Ok a => Ok (g a) | Er e => Er e end.

Lemma rmap_id {A} (x : res A) : rmap (fun a => a) x = x. Proof. by destruct x. Qed.
Lemma rbind_map {A B C D} (g : A -> B) (h : C -> D) (x : res A) (y : res B) (k : A -> res C) (k' : B -> res D) :
  y = rmap g x -> (forall a, k' (g a) = rmap h (k a)) -> rbind y k' = rmap h (rbind x k).
Proof. intros -> H. destruct x; cbn; [apply H|done]. Qed.
Lemma rbind_same {A C D} (h : C -> D) (x : res A) (k : A -> res C) (k' : A -> res D) :
  (forall a, k' a = rmap h (k a)) -> rbind x k' = rmap h (rbind x k).
Proof. intros H. destruct x; cbn; [apply H|done]. Qed.

Section Alike.
Variable f : addr -> addr.
Hypothesis R : renaming f.

Local Instance f_inj : Inj eq eq f. Proof. exact (rn_inj f R). Qed.
Local Instance key_inj : Inj eq eq (ren_key f).
Proof. intros [n a] [m b]. unfold ren_key. cbn. intros [= -> H]. apply f_inj in H as ->. done. Qed.

Notation R0 := (ren f).

Lemma f_eqb a b : (f a =? f b) = (a =? b).
Proof. destruct (decide (a = b)) as [->|H]; [by rewrite !N.eqb_refl|].
  rewrite (proj2 (N.eqb_neq a b)) by done. apply N.eqb_neq. intros E. by apply f_inj in E. Qed.
Lemma f_self a : (f a =? SELF) = (a =? SELF).
Proof. rewrite <- (rn_self f R) at 1. apply f_eqb. Qed.
Lemma f_zero a : (f a =? 0) = (a =? 0).
Proof. rewrite <- (rn_zero f R) at 1. apply f_eqb. Qed.

(** * Ledgers *)
Lemma amt_kmap (m : gmap N N) a : amt_at (kmap f m) (f a) = amt_at m a.
Proof. unfold amt_at. by rewrite lookup_kmap by apply _. Qed.
Lemma amt_kmap_self (m : gmap N N) : amt_at (kmap f m) SELF = amt_at m SELF.
Proof. rewrite <- (rn_self f R) at 1. apply amt_kmap. Qed.
Lemma amt_key (m : gmap (N * N) N) n a : amt_at (kmap (ren_key f) m) (n, f a) = amt_at m (n, a).
Proof. unfold amt_at. change (n, f a) with (ren_key f (n, a)). by rewrite lookup_kmap by apply _. Qed.
Lemma amt_key_self (m : gmap (N * N) N) n : amt_at (kmap (ren_key f) m) (n, SELF) = amt_at m (n, SELF).
Proof. rewrite <- (rn_self f R) at 1. apply amt_key. Qed.

Lemma credit_f m a x : credit (kmap f m) (f a) x = kmap f (credit m a x).
Proof. unfold credit. by rewrite amt_kmap, kmap_insert by apply _. Qed.
Lemma credit_self m x : credit (kmap f m) SELF x = kmap f (credit m SELF x).
Proof. rewrite <- (rn_self f R) at 1. apply credit_f. Qed.
Lemma credit_key m n a x : credit (kmap (ren_key f) m) (n, f a) x = kmap (ren_key f) (credit m (n, a) x).
Proof. unfold credit. rewrite amt_key, kmap_insert by apply _. done. Qed.
Lemma credit_key_self m n x : credit (kmap (ren_key f) m) (n, SELF) x = kmap (ren_key f) (credit m (n, SELF) x).
Proof. rewrite <- (rn_self f R) at 1. apply credit_key. Qed.
Lemma debit_f m a x : debit (kmap f m) (f a) x = rmap (kmap f) (debit m a x).
Proof. unfold debit. rewrite amt_kmap. destruct (x <=? amt_at m a); [|done]. cbn. by rewrite kmap_insert by apply _. Qed.
Lemma debit_self m x : debit (kmap f m) SELF x = rmap (kmap f) (debit m SELF x).
Proof. rewrite <- (rn_self f R) at 1. apply debit_f. Qed.
Lemma debit_key m n a x : debit (kmap (ren_key f) m) (n, f a) x = rmap (kmap (ren_key f)) (debit m (n, a) x).
Proof. unfold debit. rewrite amt_key. destruct (x <=? amt_at m (n, a)); [|done]. cbn. by rewrite kmap_insert by apply _. Qed.
Lemma debit_key_self m n x : debit (kmap (ren_key f) m) (n, SELF) x = rmap (kmap (ren_key f)) (debit m (n, SELF) x).
Proof. rewrite <- (rn_self f R) at 1. apply debit_key. Qed.

(** * Primitives *)
Lemma emit_r e w : emit (ren_eff f e) (R0 w) = R0 (emit e w).
Proof. unfold emit, ren. cbn. by rewrite map_app. Qed.
Lemma take_egld_r a w : take_egld a (R0 w) = rmap R0 (take_egld a w).
Proof. unfold take_egld. cbn. by destruct (a <=? w_egld w). Qed.
Lemma send_egld_r u a w : send_egld (f u) a (R0 w) = rmap R0 (send_egld u a w).
Proof. unfold send_egld. eapply rbind_map; [apply take_egld_r|]. intros v. cbn [rmap]. by rewrite <- emit_r. Qed.
Lemma register_r k a w : register (ren_call f k) a (R0 w) = rmap R0 (register k a w).
Proof.
  unfold register. eapply rbind_map; [apply take_egld_r|]. intros v. cbn [rmap]. rewrite <- emit_r.
  do 2 f_equal. unfold ren. cbn. by rewrite map_app.
Qed.
Lemma mint_ls_r a w : mint_ls a (R0 w) = R0 (mint_ls a w).
Proof. unfold mint_ls. cbn [w_ls ren]. by rewrite credit_self. Qed.
Lemma burn_ls_r a w : burn_ls a (R0 w) = rmap R0 (burn_ls a w).
Proof. unfold burn_ls. eapply rbind_map; [apply debit_self|]. done. Qed.
Lemma send_ls_r u a w : send_ls (f u) a (R0 w) = rmap R0 (send_ls u a w).
Proof.
  unfold send_ls. eapply rbind_map; [apply debit_self|]. intros m. cbn [rmap]. rewrite <- emit_r, credit_f. done.
Qed.
Lemma send_ust_r u n a w : send_ust (f u) n a (R0 w) = rmap R0 (send_ust u n a w).
Proof.
  unfold send_ust. eapply rbind_map; [apply debit_key_self|]. intros m. cbn [rmap]. rewrite <- emit_r, credit_key. done.
Qed.
Lemma nft_create_r a t w : nft_create a t (R0 w) = (R0 (fst (nft_create a t w)), snd (nft_create a t w)).
Proof. unfold nft_create. cbn [w_ust ren w_last w_attr fst snd]. by rewrite credit_key_self. Qed.
Lemma ubal_self n w : ubal (R0 w) n SELF = ubal w n SELF.
Proof. unfold ubal. cbn [w_ust ren]. apply amt_key_self. Qed.
Lemma nft_add_r n a w : nft_add n a (R0 w) = rmap R0 (nft_add n a w).
Proof. unfold nft_add. rewrite ubal_self. destruct (0 <? ubal w n SELF); [|done]. cbn [w_ust ren]. by rewrite credit_key_self. Qed.
Lemma nft_burn_r n a w : nft_burn n a (R0 w) = rmap R0 (nft_burn n a w).
Proof. unfold nft_burn. eapply rbind_map; [apply debit_key_self|]. done. Qed.
Lemma token_attributes_r n w : token_attributes n (R0 w) = token_attributes n w.
Proof. unfold token_attributes. by rewrite ubal_self. Qed.
Lemma commit_r c w : commit c (R0 w) = R0 (commit c w). Proof. done. Qed.
Lemma in_r a l : existsb (N.eqb (f a)) (map f l) = existsb (N.eqb a) l.
Proof. induction l as [|b l IH]; [done|]. cbn. by rewrite f_eqb, IH. Qed.
Lemma manager_r a w : manager_b (f a) (R0 w) = manager_b a w.
Proof.
  unfold manager_b. change (c_mgrs (w_cfg (R0 w))) with (map f (c_mgrs (w_cfg w))).
  change (w_owner (R0 w)) with (f (w_owner w)). by rewrite f_eqb, in_r.
Qed.
Lemma is_manager_r a w : is_manager (f a) (R0 w) = is_manager a w.
Proof. unfold is_manager. by rewrite manager_r. Qed.
Lemma only_owner_r a w : only_owner (f a) (R0 w) = only_owner a w.
Proof. unfold only_owner. cbn [w_owner ren]. by rewrite f_eqb. Qed.

Lemma pv_lookup pv c : (kmap f (ren_prov f <$> pv) : gmap N prov) !! f c = ren_prov f <$> pv !! c.
Proof. by rewrite lookup_kmap, lookup_fmap by apply _. Qed.
Lemma get_prov_r pv c : get_prov (kmap f (ren_prov f <$> pv)) (f c) = rmap (ren_prov f) (get_prov pv c).
Proof. unfold get_prov. rewrite pv_lookup. by destruct (pv !! c). Qed.
Lemma pv_insert pv c p : <[f c := ren_prov f p]> (kmap f (ren_prov f <$> pv) : gmap N prov) = kmap f (ren_prov f <$> <[c := p]> pv).
Proof. by rewrite fmap_insert, kmap_insert by apply _. Qed.
Lemma upd_prov_r c g g' w : (forall p, g' (ren_prov f p) = rmap (ren_prov f) (g p)) ->
  upd_prov (f c) g' (R0 w) = rmap R0 (upd_prov c g w).
Proof.
  intros Hg. unfold upd_prov. eapply rbind_map; [apply get_prov_r|]. intros p.
  eapply rbind_map; [apply Hg|]. intros q. cbn [rmap w_pv ren]. by rewrite pv_insert.
Qed.

Lemma set_insert_r c l : set_insert (f c) (map f l) = map f (set_insert c l).
Proof. unfold set_insert. rewrite in_r. destruct (existsb (N.eqb c) l); [done|]. by rewrite map_app. Qed.
Lemma set_remove_r c l : set_remove (f c) (map f l) = map f (set_remove c l).
Proof. unfold set_remove. induction l as [|a l IH]; [done|]. cbn. rewrite f_eqb. destruct (c =? a); cbn; by rewrite IH. Qed.
Lemma move_to_back_r c l : move_to_back (f c) (map f l) = map f (move_to_back c l).
Proof. unfold move_to_back. by rewrite set_remove_r, set_insert_r. Qed.
Lemma replace_at_r c z l : replace_at (f c) (f z) (map f l) = map f (replace_at c z l).
Proof. induction l as [|a l IH]; [done|]. cbn. rewrite f_eqb. destruct (a =? c); cbn; [done|by rewrite IH]. Qed.
Lemma last_r l d : List.last (map f l) (f d) = f (List.last l d).
Proof. induction l as [|a l IH]; [done|]. cbn [map List.last]. destruct l; [done|]. exact IH. Qed.
Lemma removelast_r (l : list N) : removelast (map f l) = map f (removelast l).
Proof. induction l as [|a l IH]; [done|]. cbn [map removelast]. destruct l; [done|]. cbn [map] in *. by rewrite IH. Qed.
Lemma swap_remove_r c l : swap_remove (f c) (map f l) = map f (swap_remove c l).
Proof. unfold swap_remove. rewrite in_r. destruct (existsb (N.eqb c) l); [|done]. by rewrite last_r, replace_at_r, removelast_r. Qed.
Lemma add_all_r l s : add_all (map f l) (map f s) = map f (add_all l s).
Proof. revert s. induction l as [|a l IH]; intros s; [done|]. cbn. by rewrite set_insert_r, IH. Qed.

(** * Selection *)
Definition ren_info (i : sinfo) : sinfo := Sinfo (f (i_addr i)) (i_score i) (i_total i) (i_apy i) (i_nodes i) (i_avail i) (i_space i).
Definition ren_sel (d : dsel) : dsel := Dsel (f (d_addr d)) (d_amt d) (d_space d).
Definition ren_infos (x : list sinfo * N) : list sinfo * N := (map ren_info (fst x), snd x).
Definition ren_sels (x : list dsel * N) : list dsel * N := (map ren_sel (fst x), snd x).

Lemma mk_info_r c p : mk_info (f c) (ren_prov f p) = rmap ren_info (mk_info c p).
Proof.
  unfold mk_info. eapply rbind_same. intros s. change (avail (ren_prov f p)) with (avail p). eapply rbind_same. done.
Qed.

Lemma sel_deleg_loop_r l pv m n :
  sel_deleg_loop (map f l) (kmap f (ren_prov f <$> pv)) m n = rmap ren_infos (sel_deleg_loop l pv m n).
Proof.
  revert n. induction l as [|c l IH]; intros n; [done|]. cbn [map sel_deleg_loop].
  eapply rbind_map; [apply get_prov_r|]. intros p. change (prov_eligible (ren_prov f p)) with (prov_eligible p).
  eapply rbind_same. intros [].
  - change (avail (ren_prov f p)) with (avail p). eapply rbind_same. intros a.
    eapply rbind_map; [apply mk_info_r|]. intros i. destruct (n + 1 =? m); [done|].
    eapply rbind_map; [apply IH|]. by intros [is t].
  - destruct (n =? m); [done|]. apply IH.
Qed.

Lemma sel_undel_loop_r l pv h m av rem n :
  sel_undel_loop (map f l) (kmap f (ren_prov f <$> pv)) h m av rem n = rmap ren_infos (sel_undel_loop l pv h m av rem n).
Proof.
  revert rem n. induction l as [|c l IH]; intros rem n; [done|]. cbn [map sel_undel_loop].
  eapply rbind_same. intros hh. destruct (hh <=? n); [done|]. destruct ((m <=? n) && (rem =? 0)); [done|].
  eapply rbind_map; [apply get_prov_r|]. intros p. change (avail (ren_prov f p)) with (avail p).
  eapply rbind_same. intros s. eapply rbind_same. intros t. destruct (0 <? t); [|apply IH].
  eapply rbind_map; [apply mk_info_r|]. intros i. eapply rbind_same. intros r'.
  eapply rbind_map; [apply IH|]. by intros [is u].
Qed.

Lemma score_all_r l d t c : score_all (map ren_info l) d t c = rmap ren_infos (score_all l d t c).
Proof.
  induction l as [|i l IH]; [done|]. cbn [map score_all].
  change (score_of (ren_info i) d t c) with (score_of i d t c). eapply rbind_same. intros s.
  eapply rbind_map; [apply IH|]. by intros [r u].
Qed.

Lemma distribute_loop_r l a rem t d :
  distribute_loop (map ren_info l) a rem t d = rmap ren_sels (distribute_loop l a rem t d).
Proof.
  revert rem. induction l as [|i l IH]; intros rem; [done|]. cbn [map distribute_loop].
  change (provider_amount (ren_info i) a rem t d) with (provider_amount i a rem t d).
  eapply rbind_same. intros x. destruct (MIN_EGLD <=? x); [|apply IH].
  eapply rbind_same. intros r'. eapply rbind_same. intros sp. eapply rbind_map; [apply IH|]. by intros [ds u].
Qed.

Lemma remaining_loop_r l rem d : remaining_loop (map ren_sel l) rem d = rmap ren_sels (remaining_loop l rem d).
Proof.
  revert rem. induction l as [|x l IH]; intros rem; [done|]. cbn [map remaining_loop].
  destruct (rem =? 0); [done|].
  eapply (rbind_map (fun y => (ren_sel (fst y), snd y))).
  - destruct d; cbn [negb].
    + change (d_space (ren_sel x)) with (d_space x). destruct (d_space x) as [s|]; [|done].
      destruct (0 <? N.min s rem); [|done]. eapply rbind_same. done.
    + change (d_space (ren_sel x)) with (d_space x). eapply rbind_same. intros s. eapply rbind_same. intros lf.
      destruct (_ && _); [|done]. eapply rbind_same. done.
  - intros [y r']. cbn [fst snd]. eapply rbind_map; [apply IH|]. by intros [ds u].
Qed.

Lemma get_delegation_contract_r a d dl ul pv g c :
  get_delegation_contract a d (map f dl) (map f ul) (kmap f (ren_prov f <$> pv)) (ren_cfg f g) c
  = rmap (fun x => (map ren_sel (fst x), snd x)) (get_delegation_contract a d dl ul pv g c).
Proof.
  unfold get_delegation_contract.
  assert (E : (if d then map f dl else map f ul) = map f (if d then dl else ul)) by by destruct d.
  rewrite E, map_length. eapply rbind_same. intros _.
  eapply (rbind_map ren_infos).
  { destruct d.
    - unfold select_deleg. rewrite map_length. eapply rbind_same. intros m. apply sel_deleg_loop_r.
    - unfold select_undel. rewrite map_length. do 4 (eapply rbind_same; intros ?). apply sel_undel_loop_r. }
  intros [sel t]. cbn [ren_infos fst snd]. rewrite map_length. eapply rbind_same. intros _.
  eapply rbind_same. intros sc. eapply (rbind_map ren_sels).
  { unfold distribute_amount. eapply rbind_map; [apply score_all_r|]. intros [l' ts]. cbn [ren_infos fst snd].
    eapply rbind_map; [apply distribute_loop_r|]. intros [ds rem]. cbn [ren_sels fst snd].
    destruct (rem =? 0); [done|]. apply remaining_loop_r. }
  by intros [ds rem].
Qed.

(** * Pool, tokens and user endpoints *)
Notation PW := (fun x : pool * world => (fst x, R0 (snd x))).
Notation NW := (fun x : N * world => (fst x, R0 (snd x))).

Lemma clean_r n t w : clean_old_unbond_epochs n t (R0 w) = rmap R0 (clean_old_unbond_epochs n t w).
Proof.
  unfold clean_old_unbond_epochs. rewrite token_attributes_r. eapply rbind_same. intros [ue ub].
  destruct (ue <? t); [|done].
  change (set_un (delete ub (w_un (R0 w))) (R0 w)) with (R0 (set_un (delete ub (w_un w)) w)).
  rewrite ubal_self. apply nft_burn_r.
Qed.

Lemma mint_ust_r t a ub ep w : mint_unstake_tokens t a ub ep (R0 w) = rmap NW (mint_unstake_tokens t a ub ep w).
Proof.
  unfold mint_unstake_tokens. change (unstake_token_id (R0 w)) with (unstake_token_id w). eapply rbind_same. intros _.
  change (w_un (R0 w)) with (w_un w). destruct (w_un w !! ub) as [n|].
  - eapply rbind_map; [apply nft_add_r|]. done.
  - rewrite nft_create_r. destruct (nft_create (a + 1) t w) as [w1 n]. cbn [fst snd].
    eapply (rbind_map R0); [|done].
    change (set_un (<[ub:=n]> (w_un (R0 w1))) (R0 w1)) with (R0 (set_un (<[ub:=n]> (w_un w1)) w1)).
    destruct (1 <? n); [apply clean_r|done].
Qed.

Lemma process_delegation_r u x y c w : process_delegation (f u) x y c (R0 w) = rmap PW (process_delegation u x y c w).
Proof.
  unfold process_delegation. eapply rbind_same. intros [c1 f1]. eapply rbind_same. intros [c2 f2].
  destruct (0 <? f2); [|done]. eapply rbind_same. intros [m c3].
  rewrite mint_ls_r. eapply rbind_map; [apply send_ls_r|]. intros v. cbn [rmap fst snd]. by rewrite <- emit_r.
Qed.

Lemma process_instant_r u x c w : process_instant_redemption (f u) x c (R0 w) = rmap PW (process_instant_redemption u x c w).
Proof.
  unfold process_instant_redemption. destruct (0 <? x); [|done]. eapply rbind_same. intros p. eapply rbind_same. intros _.
  eapply rbind_map; [apply send_egld_r|]. done.
Qed.

Lemma undelegate_amount_r u a c w : undelegate_amount (f u) a c (R0 w) = rmap PW (undelegate_amount u a c w).
Proof.
  unfold undelegate_amount. destruct (0 <? a); [|done]. eapply rbind_same. intros _.
  change (w_epoch (R0 w)) with (w_epoch w). change (c_unbond (w_cfg (R0 w))) with (c_unbond (w_cfg w)).
  eapply rbind_map; [apply mint_ust_r|]. intros [n w1]. cbn [fst snd].
  eapply rbind_map; [apply send_ust_r|]. done.
Qed.

Lemma process_un_delegation_r u x y c w : process_un_delegation (f u) x y c (R0 w) = rmap PW (process_un_delegation u x y c w).
Proof.
  unfold process_un_delegation. eapply rbind_map; [apply process_instant_r|]. intros [c1 w1]. cbn [fst snd].
  eapply rbind_map; [apply undelegate_amount_r|]. intros [c2 w2]. cbn [fst snd rmap]. by rewrite <- emit_r.
Qed.

Ltac same_head := first [eapply rbind_same; intros ?|eapply rbind_map; [solve [eauto]|intros ?]].

Lemma delegate_r u a w : delegate (f u) a (R0 w) = rmap R0 (delegate u a w).
Proof.
  unfold delegate. change (cache_new (R0 w)) with (cache_new w). change (is_state_active (R0 w)) with (is_state_active w).
  do 3 (eapply rbind_same; intros ?). eapply rbind_same. intros [p e]. eapply rbind_map; [apply process_delegation_r|].
  by intros [c1 w1].
Qed.

Lemma un_delegate_r u pays w : un_delegate (f u) pays (R0 w) = rmap R0 (un_delegate u pays w).
Proof.
  unfold un_delegate. change (cache_new (R0 w)) with (cache_new w). eapply rbind_same. intros c.
  destruct pays as [|p [|]]; try done. change (is_state_active (R0 w)) with (is_state_active w).
  do 3 (eapply rbind_same; intros ?). eapply rbind_same. intros [e c1]. eapply rbind_map; [apply burn_ls_r|]. intros w1.
  eapply rbind_same. intros [i r]. eapply rbind_map; [apply process_un_delegation_r|]. by intros [c2 w2].
Qed.

Lemma withdraw_loop_r u pays c w s :
  withdraw_loop (f u) pays c (R0 w) s = rmap (fun x => (fst (fst x), R0 (snd (fst x)), snd x)) (withdraw_loop u pays c w s).
Proof.
  revert c w s. induction pays as [|p l IH]; intros c w s; [done|]. cbn [withdraw_loop].
  destruct (y_tok p) as [|n|]; try done. eapply rbind_same. intros _. rewrite token_attributes_r.
  eapply rbind_same. intros [ue ub]. change (w_epoch (R0 w)) with (w_epoch w). eapply rbind_same. intros _.
  unfold burn_unstake_tokens. destruct (y_amt p <=? withdrawn c); [|destruct (0 <? withdrawn c); [|done]].
  - eapply rbind_map; [apply nft_burn_r|]. intros w1. eapply rbind_same. intros t. apply IH.
  - eapply rbind_map; [apply nft_burn_r|]. intros w1. eapply rbind_same. intros t.
    eapply rbind_map; [apply send_ust_r|]. intros w2. apply IH.
Qed.

Lemma withdraw_r u pays w : withdraw (f u) pays (R0 w) = rmap R0 (withdraw u pays w).
Proof.
  unfold withdraw. change (cache_new (R0 w)) with (cache_new w). change (is_state_active (R0 w)) with (is_state_active w).
  change (unstake_token_id (R0 w)) with (unstake_token_id w). do 3 (eapply rbind_same; intros ?).
  eapply rbind_map; [apply withdraw_loop_r|]. intros [[c1 w1] s]. cbn [fst snd].
  eapply rbind_map; [apply send_egld_r|]. intros w2. cbn [rmap]. by rewrite <- commit_r, <- emit_r.
Qed.

(** * Operators' endpoints *)
Lemma delegate_batch_r ds w : delegate_batch (map ren_sel ds) (R0 w) = rmap R0 (delegate_batch ds w).
Proof.
  revert w. induction ds as [|d ds IH]; intros w; [done|]. cbn [map delegate_batch].
  change (w_dl (R0 w)) with (map f (w_dl w)). change (d_addr (ren_sel d)) with (f (d_addr d)).
  change (d_amt (ren_sel d)) with (d_amt d). rewrite move_to_back_r.
  change (set_dl (map f ?x) (R0 w)) with (R0 (set_dl x w)).
  eapply rbind_map; [apply upd_prov_r; done|]. intros w1.
  eapply rbind_map; [apply (register_r (KDeleg _ _))|]. intros w2. apply IH.
Qed.

Lemma undelegate_batch_r ds w : undelegate_batch (map ren_sel ds) (R0 w) = rmap R0 (undelegate_batch ds w).
Proof.
  revert w. induction ds as [|d ds IH]; intros w; [done|]. cbn [map undelegate_batch].
  change (w_ul (R0 w)) with (map f (w_ul w)). change (d_addr (ren_sel d)) with (f (d_addr d)).
  change (d_amt (ren_sel d)) with (d_amt d). rewrite move_to_back_r.
  change (set_ul (map f ?x) (R0 w)) with (R0 (set_ul x w)).
  eapply rbind_map; [apply upd_prov_r; done|]. intros w1.
  eapply rbind_map; [apply (register_r (KUndel _ _))|]. intros w2. apply IH.
Qed.

Lemma delegate_pending_r u o w : delegate_pending (f u) o (R0 w) = rmap R0 (delegate_pending u o w).
Proof.
  unfold delegate_pending. change (cache_new (R0 w)) with (cache_new w). change (is_state_active (R0 w)) with (is_state_active w).
  rewrite is_manager_r. do 4 (eapply rbind_same; intros ?). eapply rbind_map; [apply get_delegation_contract_r|].
  intros [ds c1]. cbn [fst snd]. eapply rbind_same. intros p. eapply rbind_map; [apply delegate_batch_r|].
  intros w1. cbn [rmap]. by rewrite <- commit_r, <- emit_r.
Qed.

Lemma un_delegate_pending_r u o w : un_delegate_pending (f u) o (R0 w) = rmap R0 (un_delegate_pending u o w).
Proof.
  unfold un_delegate_pending. change (cache_new (R0 w)) with (cache_new w). change (is_state_active (R0 w)) with (is_state_active w).
  rewrite is_manager_r. do 4 (eapply rbind_same; intros ?). eapply rbind_map; [apply get_delegation_contract_r|].
  intros [ds c1]. cbn [fst snd]. eapply rbind_same. intros p. eapply rbind_map; [apply undelegate_batch_r|].
  intros w1. cbn [rmap]. by rewrite <- commit_r, <- emit_r.
Qed.

Lemma withdraw_pending_r u c w : withdraw_pending (f u) (f c) (R0 w) = rmap R0 (withdraw_pending u c w).
Proof.
  unfold withdraw_pending. change (cache_new (R0 w)) with (cache_new w). change (is_state_active (R0 w)) with (is_state_active w).
  rewrite is_manager_r. do 3 (eapply rbind_same; intros ?). change (w_pv (R0 w)) with (kmap f (ren_prov f <$> w_pv w) : gmap N prov).
  rewrite pv_lookup. destruct (w_pv w !! c); [|done]. cbn [fmap option_fmap option_map].
  eapply rbind_same. intros _. eapply rbind_map; [apply (register_r (KWithd _))|]. done.
Qed.

Lemma claim_rewards_r u w : claim_rewards (f u) (R0 w) = rmap R0 (claim_rewards u w).
Proof.
  unfold claim_rewards. change (cache_new (R0 w)) with (cache_new w). change (is_state_active (R0 w)) with (is_state_active w).
  rewrite is_manager_r. do 3 (eapply rbind_same; intros ?). change (w_dl (R0 w)) with (map f (w_dl w)). rewrite map_length.
  eapply rbind_same. intros _. eapply rbind_map; [apply (register_r (KClaim _))|]. done.
Qed.

Lemma claim_fees_r b w : claim_fees b (R0 w) = rmap R0 (claim_fees b w).
Proof.
  unfold claim_fees, claim_fees_with. change (cache_new (R0 w)) with (cache_new w). do 2 (eapply rbind_same; intros ?).
  change (c_acc (w_cfg (R0 w))) with (f (c_acc (w_cfg w))). rewrite f_self. eapply rbind_same. intros _.
  eapply rbind_map; [apply take_egld_r|]. intros w1. destruct b; [|done]. cbn [rbind rmap]. by rewrite <- commit_r, <- emit_r.
Qed.

Lemma whitelist_r u x c a t k n y w :
  whitelist (f u) x (f c) (f a) t k n y (R0 w) = rmap R0 (whitelist u x c a t k n y w).
Proof.
  unfold whitelist. change (w_dl (R0 w)) with (map f (w_dl w)). change (w_ul (R0 w)) with (map f (w_ul w)).
  change (c_maxaddr (w_cfg (R0 w))) with (c_maxaddr (w_cfg w)). rewrite !map_length, is_manager_r.
  change (w_pv (R0 w)) with (kmap f (ren_prov f <$> w_pv w) : gmap N prov). rewrite pv_lookup.
  do 3 (eapply rbind_same; intros ?). destruct (w_pv w !! c); [done|]. cbn [fmap option_fmap option_map].
  do 3 (eapply rbind_same; intros ?). 
  change (Prov (f a) t k n y 0 0 true 0 0) with (ren_prov f (Prov a t k n y 0 0 true 0 0)). rewrite pv_insert.
  change (set_pv (kmap f (ren_prov f <$> ?m)) (R0 w)) with (R0 (set_pv m w)). apply (register_r (KWhite _ _ _)).
Qed.

Lemma change_admin_r u c a w : change_admin (f u) (f c) (f a) (R0 w) = rmap R0 (change_admin u c a w).
Proof.
  unfold change_admin. change (w_pv (R0 w)) with (kmap f (ren_prov f <$> w_pv w) : gmap N prov).
  rewrite pv_lookup, is_manager_r. destruct (w_pv w !! c); [|done]. cbn [fmap option_fmap option_map].
  do 2 (eapply rbind_same; intros ?). by apply upd_prov_r.
Qed.

Lemma change_params_r u c t k n y b w : change_params (f u) (f c) t k n y b (R0 w) = rmap R0 (change_params u c t k n y b w).
Proof.
  unfold change_params. eapply rbind_map; [apply get_prov_r|]. intros p. change (p_admin (ren_prov f p)) with (f (p_admin p)).
  rewrite f_eqb, manager_r. do 2 (eapply rbind_same; intros ?). by apply upd_prov_r.
Qed.

Lemma register_ls_r u x w : register_ls_token (f u) x (R0 w) = rmap R0 (register_ls_token u x w).
Proof.
  unfold register_ls_token. rewrite only_owner_r. eapply rbind_same. intros _.
  change (c_lstok (w_cfg (R0 w))) with (c_lstok (w_cfg w)). destruct (c_lstok (w_cfg w)); try done.
  exact (register_r (KIssue true u x) x (set_cfg (set_c_lstok TPending (w_cfg w)) w)).
Qed.
Lemma register_ust_r u x w : register_unstake_token (f u) x (R0 w) = rmap R0 (register_unstake_token u x w).
Proof.
  unfold register_unstake_token. rewrite only_owner_r. eapply rbind_same. intros _.
  change (c_usttok (w_cfg (R0 w))) with (c_usttok (w_cfg w)). destruct (c_usttok (w_cfg w)); try done.
  exact (register_r (KIssue false u x) x (set_cfg (set_c_usttok TPending (w_cfg w)) w)).
Qed.

Lemma owner_set_r u g g' w : (forall x, g' (ren_cfg f x) = ren_cfg f (g x)) ->
  owner_set (f u) g' (R0 w) = rmap R0 (owner_set u g w).
Proof.
  intros Hg. unfold owner_set. rewrite only_owner_r. eapply rbind_same. intros _. cbn [rmap].
  change (w_cfg (R0 w)) with (ren_cfg f (w_cfg w)). by rewrite Hg.
Qed.

Lemma migration_caller_r u w : migration_caller (f u) (R0 w) = migration_caller u w.
Proof.
  unfold migration_caller. change (c_migr (w_cfg (R0 w))) with (option_map f (c_migr (w_cfg w))).
  destruct (c_migr (w_cfg w)) as [m|]; [|done]. cbn [option_map]. by rewrite f_zero, f_eqb, (rn_kind f R).
Qed.

Lemma migrate_r u a x w : migrate (f u) a (f x) (R0 w) = rmap R0 (migrate u a x w).
Proof.
  unfold migrate. change (cache_new (R0 w)) with (cache_new w). rewrite migration_caller_r. do 2 (eapply rbind_same; intros ?).
  eapply rbind_same. intros [m c1]. rewrite mint_ls_r. change (w_epoch (R0 w)) with (w_epoch w).
  change (EvAdd a (f x) c1 (w_epoch w)) with (ren_eff f (EvAdd a x c1 (w_epoch w))). rewrite emit_r.
  eapply rbind_map; [apply send_ls_r|]. done.
Qed.

Lemma run_endpoint_r ep u a pays w : run_endpoint (ren_ep f ep) (f u) a pays (R0 w) = rmap R0 (run_endpoint ep u a pays w).
Proof.
  destruct ep; cbn [run_endpoint ren_ep];
    first [apply delegate_r|apply un_delegate_r|apply withdraw_r|apply delegate_pending_r|apply un_delegate_pending_r
      |apply withdraw_pending_r|apply claim_rewards_r|apply claim_fees_r|apply whitelist_r|apply change_admin_r
      |apply change_params_r|apply register_ls_r|apply register_ust_r|by apply owner_set_r|apply migrate_r|idtac].
  - unfold set_max_addresses. rewrite only_owner_r. do 2 (eapply rbind_same; intros ?). by apply owner_set_r.
  - unfold set_max_selected. rewrite only_owner_r. do 2 (eapply rbind_same; intros ?). by apply owner_set_r.
  - apply owner_set_r. intros g. change (c_mgrs (ren_cfg f g)) with (map f (c_mgrs g)). by rewrite add_all_r.
  - apply owner_set_r. intros g. change (c_mgrs (ren_cfg f g)) with (map f (c_mgrs g)). by rewrite swap_remove_r.
  - unfold set_scoring_config. rewrite is_manager_r. by do 2 (eapply rbind_same; intros ?).
  - unfold migrate_pending. change (cache_new (R0 w)) with (cache_new w). rewrite migration_caller_r.
    do 2 (eapply rbind_same; intros ?). cbn [rmap]. by rewrite <- commit_r, <- emit_r.
  - unfold add_rewards. change (cache_new (R0 w)) with (cache_new w).
    eapply rbind_same; intros ?. cbn [rmap]. by rewrite <- commit_r, <- emit_r.
  - unfold set_migration_sc. rewrite only_owner_r, (rn_kind f R). do 2 (eapply rbind_same; intros ?). by apply owner_set_r.
Qed.

(** * Callbacks *)
Lemma callback_r k r w : callback (ren_call f k) r (R0 w) = rmap R0 (callback k r w).
Proof.
  destruct k as [c a|c a|c|l|c a u|ls u a]; cbn [callback ren_call].
  - unfold add_liquidity_callback. change (cache_new (R0 w)) with (cache_new w). eapply rbind_same. intros k.
    destruct (is_done r); (eapply rbind_map; [apply upd_prov_r; intros p; by eapply rbind_same|]).
    + done.
    + intros w1. cbn [rmap]. by rewrite <- commit_r, <- emit_r.
  - unfold remove_liquidity_callback. change (cache_new (R0 w)) with (cache_new w). eapply rbind_same. intros k.
    eapply (rbind_map PW).
    + destruct (is_done r).
      * eapply rbind_map; [apply upd_prov_r; intros p|done].
        eapply rbind_same; intros ?. by eapply rbind_same.
      * eapply rbind_map; [apply upd_prov_r; intros p; by eapply rbind_same|done].
    + intros [k1 w1]. cbn [rmap fst snd]. by rewrite <- commit_r, <- emit_r.
  - change (attached (KWithd (f c)) r) with (attached (KWithd c) r). generalize (attached (KWithd c) r) as v. intros v.
    unfold withdraw_tokens_callback. destruct (0 <? v); [|done]. change (cache_new (R0 w)) with (cache_new w).
    do 2 (eapply rbind_same; intros ?). eapply rbind_map; [apply upd_prov_r; intros p; by eapply rbind_same|].
    intros w1. cbn [rmap]. by rewrite <- commit_r, <- emit_r.
  - unfold claim_rewards_callback. destruct r as [|v]; [done|]. destruct (0 <? v); [|done].
    change (cache_new (R0 w)) with (cache_new w). do 2 (eapply rbind_same; intros ?).
    cbn [rmap]. rewrite <- commit_r, <- emit_r, <- emit_r. cbn [ren_eff]. by rewrite (rn_manager f R).
  - unfold whitelist_callback. change (cache_new (R0 w)) with (cache_new w). eapply rbind_same. intros k.
    destruct (is_done r).
    + eapply rbind_map; [apply upd_prov_r; done|]. intros w1.
      change (w_dl (R0 w1)) with (map f (w_dl w1)). rewrite set_insert_r.
      change (set_dl (map f ?x) (R0 w1)) with (R0 (set_dl x w1)).
      change (w_ul (R0 ?x)) with (map f (w_ul x)). rewrite set_insert_r.
      change (set_ul (map f ?x) (R0 ?y)) with (R0 (set_ul x y)).
      eapply rbind_same. intros [m k1]. rewrite mint_ls_r. change (w_epoch (R0 ?x)) with (w_epoch x).
      change (EvAdd a (f u) k1 ?t) with (ren_eff f (EvAdd a u k1 t)). rewrite emit_r.
      eapply rbind_map; [apply send_ls_r|]. done.
    + change (w_pv (R0 w)) with (kmap f (ren_prov f <$> w_pv w) : gmap N prov). rewrite <- kmap_delete, <- fmap_delete by apply _.
      change (set_pv (kmap f (ren_prov f <$> ?m)) (R0 w)) with (R0 (set_pv m w)).
      eapply rbind_map; [apply send_egld_r|]. done.
  - unfold issue_callback. destruct (is_done r).
    + by destruct ls.
    + destruct ls.
      * change (set_cfg (set_c_lstok TNotSet (w_cfg (R0 w))) (R0 w)) with (R0 (set_cfg (set_c_lstok TNotSet (w_cfg w)) w)).
        destruct (0 <? a); [apply send_egld_r|done].
      * change (set_cfg (set_c_usttok TNotSet (w_cfg (R0 w))) (R0 w)) with (R0 (set_cfg (set_c_usttok TNotSet (w_cfg w)) w)).
        destruct (0 <? a); [apply send_egld_r|done].
Qed.

(** * Actions *)
Lemma pay_in_r u pays w : pay_in (f u) pays (R0 w) = rmap R0 (pay_in u pays w).
Proof.
  revert w. induction pays as [|p l IH]; intros w; [done|]. cbn [pay_in]. eapply (rbind_map R0); [|apply IH].
  destruct (y_tok p) as [|n|]; [| |done].
  - change (w_ls (R0 w)) with (kmap f (w_ls w) : gmap N N). rewrite debit_f. destruct (debit (w_ls w) u (y_amt p)) as [m|]; [|done].
    cbn [rmap]. by rewrite credit_self.
  - change (w_ust (R0 w)) with (kmap (ren_key f) (w_ust w) : gmap (N * N) N). rewrite debit_key.
    destruct (debit (w_ust w) (n, u) (y_amt p)) as [m|]; [|done]. cbn [rmap]. by rewrite credit_key_self.
Qed.

Lemma exec_tx_r u a pays ep w : exec_tx (f u) a pays (ren_ep f ep) (R0 w) = rmap R0 (exec_tx u a pays ep w).
Proof.
  unfold exec_tx. rewrite f_self. eapply rbind_same. intros _. eapply rbind_map; [apply pay_in_r|]. intros w1.
  assert (payment_ok (ren_ep f ep) a pays = payment_ok ep a pays) as -> by by destruct ep.
  assert (args_ok (ren_ep f ep) = args_ok ep) as -> by by destruct ep.
  do 2 (eapply rbind_same; intros ?). exact (run_endpoint_r ep u a pays (set_egld (w_egld w1 + a) w1)).
Qed.

Lemma live_r w c : live_of (R0 w) (f c) = live_of w c.
Proof. unfold live_of. change (w_live (R0 w)) with (kmap f (w_live w) : gmap N (N * N)). by rewrite lookup_kmap by apply _. Qed.
Lemma live_insert w c x : set_live (<[f c := x]> (w_live (R0 w))) (R0 w) = R0 (set_live (<[c := x]> (w_live w)) w).
Proof. unfold ren at 3. cbn. unfold ren, set_live. cbn. by rewrite kmap_insert by apply _. Qed.

Lemma exec_call_r k o w :
  exec_call (ren_call f k) o (R0 w) = match exec_call k o w with Some (r, v) => Some (r, R0 v) | None => None end.
Proof.
  destruct o as [v|]; [|done]. destruct k; cbn [exec_call ren_call]; try done; rewrite live_r;
    destruct (live_of w c) as [x u]; try destruct (_ <=? _); try done; by rewrite live_insert.
Qed.

Lemma drop_nth_map {A B} (g : A -> B) i l : drop_nth i (map g l) = map g (drop_nth i l).
Proof. revert i. induction l as [|a l IH]; intros [|i]; try done.
  change (g a :: drop_nth i (map g l) = g a :: map g (drop_nth i l)). by rewrite IH. Qed.
Lemma nth_error_map {A B} (g : A -> B) i l : nth_error (map g l) i = option_map g (nth_error l i).
Proof. revert l. induction i as [|i IH]; intros [|a l]; try done. cbn. apply IH. Qed.
Lemma attached_r k r : attached (ren_call f k) r = attached k r. Proof. by destruct k, r. Qed.

Lemma step_alike w o : step (R0 w) (ren_op f o) = (R0 (fst (step w o)), snd (step w o)).
Proof.
  unfold step. change (set_log [] (R0 w)) with (R0 (set_log [] w)). generalize (set_log [] w) as v. intros v.
  destruct o as [u a pays ep|i o|i|d|x y a|n x y a|a|a|c x u|i]; cbn [ren_op].
  - rewrite exec_tx_r. by destruct (exec_tx u a pays ep v).
  - change (w_calls (R0 v)) with (map (ren_call f) (w_calls v)). rewrite nth_error_map.
    destruct (nth_error (w_calls v) i) as [k|]; [|done]. cbn [option_map]. rewrite exec_call_r.
    destruct (exec_call k o v) as [[r v1]|]; [|done]. cbn [fst snd]. f_equal.
    change (w_res (R0 v1)) with (map (fun x => (ren_call f (fst x), snd x)) (w_res v1)).
    change (w_calls (R0 v1)) with (map (ren_call f) (w_calls v1)). rewrite drop_nth_map.
    change [(ren_call f k, r)] with (map (fun x => (ren_call f (fst x), snd x)) [(k, r)]). by rewrite <- map_app.
  - change (w_res (R0 v)) with (map (fun x => (ren_call f (fst x), snd x)) (w_res v)). rewrite nth_error_map.
    destruct (nth_error (w_res v) i) as [[k r]|]; [|done]. cbn [option_map fst snd]. rewrite drop_nth_map, attached_r.
    change (set_egld (w_egld (R0 v) + attached k r) (set_res (map (fun x => (ren_call f (fst x), snd x)) (drop_nth i (w_res v))) (R0 v)))
      with (R0 (set_egld (w_egld v + attached k r) (set_res (drop_nth i (w_res v)) v))).
    rewrite callback_r. by destruct (callback k r _).
  - change (w_epoch (R0 v)) with (w_epoch v). by destruct (w_epoch v + d <? U64).
  - rewrite f_self. destruct (x =? SELF); [done|]. change (w_ls (R0 v)) with (kmap f (w_ls v) : gmap N N).
    rewrite debit_f. destruct (debit (w_ls v) x a) as [m|]; [|done]. cbn [rmap]. by rewrite credit_f.
  - rewrite f_self. destruct (x =? SELF); [done|]. change (w_ust (R0 v)) with (kmap (ren_key f) (w_ust v) : gmap (N * N) N).
    rewrite debit_key. destruct (debit (w_ust v) (n, x) a) as [m|]; [|done]. cbn [rmap]. by rewrite credit_key.
  - done.
  - done.
  - by rewrite live_insert.
  - change (w_res (R0 v)) with (map (fun x => (ren_call f (fst x), snd x)) (w_res v)). rewrite nth_error_map.
    destruct (nth_error (w_res v) i) as [[k r]|]; [|done]. cbn [option_map fst snd]. by rewrite drop_nth_map, attached_r.
Qed.

Lemma run_alike w os : run (R0 w) (map (ren_op f) os) = R0 (run w os) /\ statuses (R0 w) (map (ren_op f) os) = statuses w os.
Proof.
  revert w. induction os as [|o os IH]; intros w; [done|]. cbn [map run statuses]. rewrite step_alike. cbn [fst snd].
  destruct (IH (fst (step w o))) as [-> ->]. done.
Qed.
End Alike.

(** * Deployment and histories *)
Lemma deploy_alike f owner acc fees rpe minr maxsel maxaddr unbond epoch w : renaming f ->
  deploy owner acc fees rpe minr maxsel maxaddr unbond epoch = Ok w ->
  deploy (f owner) (f acc) fees rpe minr maxsel maxaddr unbond epoch = Ok (ren f w).
Proof.
  intros R. unfold deploy. rewrite (f_self f R). intros H. apply rbind_ok in H as [[] [E1 H]]. rewrite E1. cbn [rbind].
  apply rbind_ok in H as [g [E2 H]]. unfold init in *. apply rbind_ok in E2 as [[] [E3 E2]]. rewrite E3. cbn [rbind].
  apply rbind_ok in E2 as [[] [E4 E2]]. rewrite E4. cbn [rbind]. injection H as <-. injection E2 as <-. reflexivity.
Qed.

Lemma reachable_alike f w : renaming f -> Reachable w -> Reachable (ren f w).
Proof.
  intros R. induction 1 as [? ? ? ? ? ? ? ? ? w H|w o _ IH].
  - exact (reach_deploy _ _ _ _ _ _ _ _ _ _ (deploy_alike f _ _ _ _ _ _ _ _ _ w R H)).
  - pose proof (reach_step _ (ren_op f o) IH) as X. rewrite (step_alike f R) in X. exact X.
Qed.

(** * Two accounts change places *)
Lemma swap_renaming a b : ordinary a -> ordinary b -> is_smart_contract a = is_smart_contract b -> renaming (swap a b).
Proof.
  intros (A1 & A2 & A3) (B1 & B2 & B3) Hk.
  assert (Hfix : forall x, x <> a -> x <> b -> swap a b x = x).
  { intros x H1 H2. unfold swap. by rewrite (proj2 (N.eqb_neq x a)), (proj2 (N.eqb_neq x b)). }
  split; [|apply Hfix; congruence..|].
  - intros x y. unfold swap. destruct (x =? a) eqn:E1, (y =? a) eqn:E2, (x =? b) eqn:E3, (y =? b) eqn:E4; lia.
  - intros x. unfold swap. destruct (x =? a) eqn:E1; [apply N.eqb_eq in E1 as ->; done|].
    destruct (x =? b) eqn:E2; [apply N.eqb_eq in E2 as ->; done|done].
Qed.

Lemma kmap_keep `{Countable K} {A} (g : K -> K) (m : gmap K A) : Inj eq eq g ->
  (forall k x, m !! k = Some x -> g k = k) -> kmap g m = m.
Proof.
  intros Hi Hg. apply map_eq. intros k. apply option_eq. intros x. rewrite lookup_kmap_Some by done. split.
  - intros (j & -> & Hj). by rewrite (Hg j x Hj).
  - intros Hk. exists k. by rewrite (Hg k x Hk).
Qed.

Lemma map_keep (g : N -> N) l : (forall x, x ∈ l -> g x = x) -> map g l = l.
Proof.
  induction l as [|a l IH]; intros H; [done|]. cbn [map]. rewrite IH by (intros x Hx; apply H; by right).
  rewrite H by left. done.
Qed.

Lemma call_keep a b k : ~ in_call a k -> ~ in_call b k -> ren_call (swap a b) k = k.
Proof.
  assert (Hfix : forall x, x <> a -> x <> b -> swap a b x = x).
  { intros x H1 H2. unfold swap. by rewrite (proj2 (N.eqb_neq x a)), (proj2 (N.eqb_neq x b)). }
  destruct k as [c x|c x|c|l|c x u|ls u x]; cbn; intros Ha Hb.
  1-3: rewrite Hfix by congruence; done.
  - rewrite map_keep; [done|]. intros x Hx. apply Hfix; by intros ->.
  - rewrite !Hfix by (intros ->; tauto). done.
  - rewrite Hfix by congruence. done.
Qed.

Lemma newcomers_keep a b w : is_smart_contract a = is_smart_contract b -> newcomer a w -> newcomer b w -> w_log w = [] ->
  ren (swap a b) w = w.
Proof.
  intros Hk (A0 & A1 & A2 & A3 & A4 & A5 & A6 & A7 & A8 & A9 & A10 & A11 & A12 & A13)
    (B0 & B1 & B2 & B3 & B4 & B5 & B6 & B7 & B8 & B9 & B10 & B11 & B12 & B13) Hl.
  pose proof (swap_renaming a b A0 B0 Hk) as R.
  assert (Hfix : forall x, x <> a -> x <> b -> swap a b x = x).
  { intros x H1 H2. unfold swap. by rewrite (proj2 (N.eqb_neq x a)), (proj2 (N.eqb_neq x b)). }
  assert (Hin : Inj eq eq (swap a b)) by exact (rn_inj _ R).
  assert (Hik : Inj eq eq (ren_key (swap a b))) by apply (key_inj _ R).
  unfold ren. rewrite Hl.
  rewrite (map_keep _ (w_dl w)) by (intros x Hx; apply Hfix; by intros ->).
  rewrite (map_keep _ (w_ul w)) by (intros x Hx; apply Hfix; by intros ->).
  rewrite (kmap_keep (swap a b) (w_ls w)) by (done || (intros k x Hx; apply Hfix; by intros ->; congruence)).
  rewrite (kmap_keep (swap a b) (w_live w)) by (done || (intros k x Hx; apply Hfix; by intros ->; congruence)).
  rewrite (kmap_keep (ren_key (swap a b)) (w_ust w)).
  2: done.
  2: { intros [n k] x Hx. unfold ren_key. cbn. rewrite Hfix; [done|intros ->; by rewrite A10 in Hx|intros ->; by rewrite B10 in Hx]. }
  assert (ren_prov (swap a b) <$> w_pv w = w_pv w) as ->.
  { apply map_eq. intros c. rewrite lookup_fmap. destruct (w_pv w !! c) as [p|] eqn:Hp; [|done]. cbn. f_equal.
    unfold ren_prov. rewrite Hfix; [by destruct p|by apply (A8 c)|by apply (B8 c)]. }
  rewrite (kmap_keep (swap a b) (w_pv w)) by (done || (intros k x Hx; apply Hfix; by intros ->; congruence)).
  rewrite (Hfix (w_owner w)) by done.
  assert (map (ren_call (swap a b)) (w_calls w) = w_calls w) as ->.
  { rewrite list.Forall_forall in A12, B12. rewrite <- (map_id (w_calls w)) at 2. apply map_ext_in. intros k Hk'.
    apply elem_of_list_In in Hk'. apply call_keep; [by apply A12|by apply B12]. }
  assert (map (fun x => (ren_call (swap a b) (fst x), snd x)) (w_res w) = w_res w) as ->.
  { rewrite list.Forall_forall in A13, B13. rewrite <- (map_id (w_res w)) at 2. apply map_ext_in. intros [k r] Hk'.
    apply elem_of_list_In in Hk'. cbn [fst snd]. rewrite call_keep; [done|by apply (A13 (k, r))|by apply (B13 (k, r))]. }
  assert (ren_cfg (swap a b) (w_cfg w) = w_cfg w) as ->; [|destruct w; cbn in *; by rewrite Hl].
  unfold ren_cfg. rewrite (map_keep _ (c_mgrs (w_cfg w))) by (intros x Hx; apply Hfix; by intros ->).
  rewrite (Hfix (c_acc (w_cfg w))) by done.
  assert (option_map (swap a b) (c_migr (w_cfg w)) = c_migr (w_cfg w)) as ->; [|by destruct (w_cfg w)].
  destruct (c_migr (w_cfg w)) as [m|] eqn:E; [|done]. cbn. rewrite Hfix; [done|by intros ->|by intros ->].
Qed.

Lemma newcomers_alike a b w o : is_smart_contract a = is_smart_contract b -> newcomer a w -> newcomer b w ->
  step w (ren_op (swap a b) o) = (ren (swap a b) (fst (step w o)), snd (step w o)).
Proof.
  intros Hk Ha Hb. pose proof (swap_renaming a b (proj1 Ha) (proj1 Hb) Hk) as R.
  assert (E : forall x, step w x = step (set_log [] w) x) by done. rewrite !E.
  rewrite <- (newcomers_keep a b (set_log [] w)) at 1 by done. apply (step_alike _ R).
Qed.

(** A test for newcomers, for the examples. *)
Definition newcomer_test (a : addr) (w : world) : bool :=
  bool_decide (a <> SELF /\ a <> 0 /\ a <> DELEGATION_MANAGER
    /\ a <> w_owner w /\ a <> c_acc (w_cfg w) /\ c_migr (w_cfg w) <> Some a /\ a ∉ c_mgrs (w_cfg w)
    /\ a ∉ w_dl w /\ a ∉ w_ul w /\ w_pv w !! a = None /\ map_Forall (fun _ p => p_admin p <> a) (w_pv w)
    /\ w_ls w !! a = None /\ map_Forall (fun (k : N * addr) (_ : N) => snd k <> a) (w_ust w)
    /\ w_live w !! a = None /\ w_calls w = [] /\ w_res w = []).
Lemma newcomer_by_test a w : newcomer_test a w = true -> newcomer a w.
Proof.
  intros H%bool_decide_eq_true. destruct H as (H1&H2&H3&H4&H5&H6&H7&H8&H9&H10&H11&H12&H13&H14&H15&H16).
  assert (forall n, w_ust w !! (n, a) = None) as Hu.
  { intros n. destruct (w_ust w !! (n, a)) eqn:Hn; [|done]. by destruct (H13 _ _ Hn). }
  unfold newcomer, ordinary. rewrite H15, H16.
  assert (forall c p, w_pv w !! c = Some p -> p_admin p <> a) as Hp by (intros c p Hp; exact (H11 c p Hp)).
  repeat (split; [done || tauto|]). by constructor.
Qed.
