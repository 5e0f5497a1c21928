(** L_Base.v — tactics and lemmas on results, sums and ledgers. *)
From Coq Require Export ZArith Lia ZifyN ZifyNat ZifyBool.
From Verif Require Export Spec.

Global Arguments N.add : simpl never.
Global Arguments N.sub : simpl never.
Global Arguments N.mul : simpl never.
Global Arguments N.div : simpl never.
Global Arguments N.modulo : simpl never.
Global Arguments N.pow : simpl never.
Global Arguments N.min : simpl never.
Global Arguments N.max : simpl never.
Global Arguments N.leb : simpl never.
Global Arguments N.ltb : simpl never.
Global Arguments N.eqb : simpl never.
Global Opaque SELF MIN_EGLD BPS U64 U32 DELEGATION_MANAGER INITIAL_EXCHANGE_RATE.

(** * Results *)
Lemma rbind_ok {A B} (x : res A) (f : A -> res B) b :
  rbind x f = Ok b -> exists a, x = Ok a /\ f a = Ok b.
Proof. destruct x; simpl; intros; [eauto | discriminate]. Qed.

Lemma require_ok b e u : require b e = Ok u -> b = true.
Proof. destruct b; simpl; congruence. Qed.

Lemma sub_ok a b c : sub a b = Ok c -> b <= a /\ c = a - b.
Proof. unfold sub. destruct (b <=? a) eqn:E; intros; simplify_eq. apply N.leb_le in E. auto. Qed.

Lemma div_ok a b c : div a b = Ok c -> b <> 0 /\ c = a / b.
Proof. unfold div. destruct (b =? 0) eqn:E; intros; simplify_eq. apply N.eqb_neq in E. auto. Qed.

Lemma Ndiv0 a : a / 0 = 0.
Proof. by destruct a. Qed.

Lemma sub_le a b : b <= a -> sub a b = Ok (a - b).
Proof. intros. unfold sub. apply N.leb_le in H. by rewrite H. Qed.

Lemma div_nz a b : b <> 0 -> div a b = Ok (a / b).
Proof. intros. unfold div. apply N.eqb_neq in H. by rewrite H. Qed.

Lemma debit_ok `{Countable K} (m : gmap K N) k a m' :
  debit m k a = Ok m' -> a <= amt_at m k /\ m' = <[k := amt_at m k - a]> m.
Proof. unfold debit. destruct (a <=? amt_at m k) eqn:E; intros; simplify_eq.
  apply N.leb_le in E. auto. Qed.

Lemma debit_le `{Countable K} (m : gmap K N) k a :
  a <= amt_at m k -> debit m k a = Ok (<[k := amt_at m k - a]> m).
Proof. intros. unfold debit. apply N.leb_le in H0. by rewrite H0. Qed.

Lemma take_egld_ok a w w' :
  take_egld a w = Ok w' -> a <= w_egld w /\ w' = set_egld (w_egld w - a) w.
Proof. unfold take_egld. destruct (a <=? w_egld w) eqn:E; intros; simplify_eq.
  apply N.leb_le in E. auto. Qed.

Lemma get_prov_ok pv c p : get_prov pv c = Ok p -> pv !! c = Some p.
Proof. unfold get_prov. destruct (pv !! c); congruence. Qed.

Lemma cache_new_ok w c :
  cache_new w = Ok c -> c_lstok (w_cfg w) = TIssued /\ c = w_pool w.
Proof. unfold cache_new, ls_token_id. destruct (c_lstok (w_cfg w)); simpl; intros; simplify_eq; auto. Qed.

Lemma unstake_token_id_ok w u :
  unstake_token_id w = Ok u -> c_usttok (w_cfg w) = TIssued.
Proof. unfold unstake_token_id. destruct (c_usttok (w_cfg w)); congruence. Qed.

Lemma is_state_active_ok w u : is_state_active w = Ok u -> c_active (w_cfg w) = true.
Proof. apply require_ok. Qed.

(** Inversion of a successful computation: splits binds and requirements,
    turning each into facts about numbers. *)
Ltac rstep H :=
  lazymatch type of H with
  | Ok _ = Ok _ => injection H; clear H; intros; subst
  | Er _ = Ok _ => discriminate H
  | rbind _ _ = Ok _ =>
      let x := fresh "x" in let E := fresh "E" in
      apply rbind_ok in H; destruct H as [x [E H]]; cbv beta in H; rstep E; rstep H
  | require _ _ = Ok _ => apply require_ok in H
  | sub _ _ = Ok _ => apply sub_ok in H; let e := fresh "Heq" in destruct H as [H e]; try subst
  | div _ _ = Ok _ => apply div_ok in H; let e := fresh "Heq" in destruct H as [H e]; try subst
  | debit _ _ _ = Ok _ => apply debit_ok in H; let e := fresh "Heq" in destruct H as [H e]; try subst
  | take_egld _ _ = Ok _ => apply take_egld_ok in H; let e := fresh "Heq" in destruct H as [H e]; try subst
  | get_prov _ _ = Ok _ => apply get_prov_ok in H
  | cache_new _ = Ok _ => apply cache_new_ok in H; let e := fresh "Heq" in destruct H as [H e]; try subst
  | unstake_token_id _ = Ok _ => apply unstake_token_id_ok in H
  | is_state_active _ = Ok _ => apply is_state_active_ok in H
  | is_manager _ _ = Ok _ => unfold is_manager in H; apply require_ok in H
  | only_owner _ _ = Ok _ => unfold only_owner in H; apply require_ok in H
  | match ?p with (_, _) => _ end = Ok _ =>
      lazymatch p with
      | (_, _) => cbv beta iota in H
      | _ => let a := fresh "a" in let b := fresh "b" in destruct p as [a b]; cbv beta iota in H
      end; rstep H
  | match ?x with Ok _ => _ | Er _ => Er _ end = Ok _ =>
      let E := fresh "E" in destruct x eqn:E; [rstep E; rstep H|discriminate H]
  | _ => idtac
  end.

(** * Sums *)
Lemma sumN_app l1 l2 : sumN (l1 ++ l2) = sumN l1 + sumN l2.
Proof. induction l1; simpl; [lia|]. rewrite IHl1. lia. Qed.

Lemma sumN_perm l1 l2 : Permutation l1 l2 -> sumN l1 = sumN l2.
Proof. induction 1; simpl; lia. Qed.

Lemma sumN_in x l : In x l -> x <= sumN l.
Proof. induction l; simpl; [done|]. intros [->|H]; [lia|]. apply IHl in H. lia. Qed.

Section gsum.
  Context `{Countable K} {V : Type}.
  Implicit Types (f : K -> V -> N) (m : gmap K V).

  Lemma gsum_empty f : gsum f ∅ = 0.
  Proof. unfold gsum. by rewrite map_to_list_empty. Qed.

  Lemma gsum_insert_new f m k v : m !! k = None -> gsum f (<[k := v]> m) = f k v + gsum f m.
  Proof.
    intros Hn. unfold gsum.
    rewrite (sumN_perm _ (map (fun kv => f (fst kv) (snd kv)) ((k, v) :: map_to_list m))).
    - done.
    - apply Permutation_map. by apply map_to_list_insert.
  Qed.

  Lemma gsum_delete f m k v : m !! k = Some v -> gsum f m = f k v + gsum f (delete k m).
  Proof.
    intros Hs. rewrite <- (insert_delete m k v) at 1 by done.
    apply gsum_insert_new. apply lookup_delete.
  Qed.

  (** contribution of the entry at [k] *)
  Definition gat f m k : N := match m !! k with Some v => f k v | None => 0 end.

  Lemma gsum_insert f m k v : gsum f (<[k := v]> m) + gat f m k = gsum f m + f k v.
  Proof.
    unfold gat. destruct (m !! k) as [u|] eqn:E.
    - rewrite (gsum_delete f m k u E), <- insert_delete_insert.
      rewrite gsum_insert_new by apply lookup_delete. lia.
    - rewrite gsum_insert_new by done. lia.
  Qed.

  Lemma gat_le f m k : gat f m k <= gsum f m.
  Proof. unfold gat. destruct (m !! k) eqn:E; [|lia]. rewrite (gsum_delete f m k v E). lia. Qed.

  Lemma gsum_delete_any f m k : gsum f m = gat f m k + gsum f (delete k m).
  Proof.
    unfold gat. destruct (m !! k) eqn:E; [by apply gsum_delete|].
    rewrite delete_notin; [lia|done].
  Qed.
End gsum.

Lemma amt_insert `{Countable K} (m : gmap K N) k k' v :
  amt_at (<[k := v]> m) k' = if decide (k = k') then v else amt_at m k'.
Proof.
  unfold amt_at. case_decide; subst; [by rewrite lookup_insert|by rewrite lookup_insert_ne].
Qed.

Lemma amt_credit `{Countable K} (m : gmap K N) k k' v :
  amt_at (credit m k v) k' = amt_at m k' + (if decide (k = k') then v else 0).
Proof. unfold credit. rewrite amt_insert. case_decide; subst; lia. Qed.

(** [gsum] of a ledger whose summand is [v] or 0 depending on the key *)
Lemma gsum_ledger `{Countable K} (s : K -> bool) (m : gmap K N) k v :
  gsum (fun k v => if s k then v else 0) (<[k := v]> m) + (if s k then amt_at m k else 0)
  = gsum (fun k v => if s k then v else 0) m + (if s k then v else 0).
Proof.
  pose proof (gsum_insert (fun k v => if s k then v else 0) m k v) as Hg.
  unfold gat in Hg. unfold amt_at. destruct (m !! k); simpl; destruct (s k); simpl in *; lia.
Qed.

Lemma gsum_all `{Countable K} (m : gmap K N) k v :
  gsum (fun _ v => v) (<[k := v]> m) + amt_at m k = gsum (fun _ v => v) m + v.
Proof. exact (gsum_ledger (fun _ => true) m k v). Qed.

Lemma gsum_users (m : gmap (N * addr) N) n a v :
  gsum (fun k v => if snd k =? SELF then 0 else v) (<[(n, a) := v]> m)
    + (if a =? SELF then 0 else amt_at m (n, a))
  = gsum (fun k v => if snd k =? SELF then 0 else v) m + (if a =? SELF then 0 else v).
Proof.
  pose proof (gsum_insert (fun (k : N * addr) v => if snd k =? SELF then 0 else v) m (n, a) v) as Hg.
  unfold gat, amt_at in *. simpl in Hg. destruct (m !! (n, a)); simpl in *; destruct (a =? SELF); lia.
Qed.

(** sums over the unanswered calls *)
Lemma sumN_drop_nth {A} (f : A -> N) i l x :
  nth_error l i = Some x -> sumN (map f l) = f x + sumN (map f (drop_nth i l)).
Proof.
  revert i; induction l as [|y l IH]; intros [|i]; simpl; try discriminate.
  - intros [= ->]. lia.
  - intros Hi. rewrite (IH i Hi). lia.
Qed.

Lemma drop_nth_perm {A} i (l : list A) x :
  nth_error l i = Some x -> Permutation l (x :: drop_nth i l).
Proof.
  revert i; induction l as [|y l IH]; intros [|i]; simpl; try discriminate.
  - intros [= ->]. done.
  - intros Hi. rewrite (IH i Hi) at 1. constructor.
Qed.

Lemma drop_nth_map {A B} (f : A -> B) i l : map f (drop_nth i l) = drop_nth i (map f l).
Proof. revert i; induction l as [|y l IH]; intros [|i]; simpl; try done. by rewrite IH. Qed.

Lemma drop_nth_in {A} i (l : list A) x : In x (drop_nth i l) -> In x l.
Proof.
  revert i; induction l as [|y l IH]; intros [|i]; simpl; auto.
  intros [->|Hx]; eauto.
Qed.
