(** L_Codec.v — lemmas about Codec.v: what is written is read back (C110). *)
From Verif Require Export Spec13.

Lemma be_length n k : length (be n k) = n.
Proof. revert k; induction n as [|n IH]; intros k; cbn [be]; [done|]. rewrite app_length, IH. cbn. lia. Qed.
Lemma num_snoc l x : num (l ++ [x]) = 256 * num l + x.
Proof. unfold num. by rewrite fold_left_app. Qed.
Lemma pow256_S n : 256 ^ N.of_nat (S n) = 256 * 256 ^ N.of_nat n.
Proof. by rewrite Nat2N.inj_succ, N.pow_succ_r'. Qed.
Lemma num_be n k : k < 256 ^ N.of_nat n -> num (be n k) = k.
Proof.
  revert k; induction n as [|n IH]; intros k Hk; cbn [be].
  - change (256 ^ N.of_nat 0) with 1 in Hk. assert (k = 0) as -> by lia. done.
  - rewrite num_snoc, IH.
    + symmetry. apply N.div_mod. lia.
    + rewrite pow256_S in Hk. apply N.div_lt_upper_bound; lia.
Qed.
Lemma be_inj n k k' : k < 256 ^ N.of_nat n -> k' < 256 ^ N.of_nat n -> be n k = be n k' -> k = k'.
Proof. intros H H' E. by rewrite <- (num_be n k H), <- (num_be n k' H'), E. Qed.
Lemma width_ok k : k < 256 ^ N.of_nat (width k).
Proof.
  unfold width. rewrite N2Nat.id. change 256 with (2 ^ 8). rewrite <- N.pow_mul_r.
  eapply N.lt_le_trans; [apply N.size_gt|]. apply N.pow_le_mono_r; [lia|].
  pose proof (N.div_mod (N.size k + 7) 8 ltac:(lia)). pose proof (N.mod_lt (N.size k + 7) 8 ltac:(lia)). lia.
Qed.
Lemma width_0 : width 0 = O. Proof. done. Qed.
Lemma num_top k : num (top_num k) = k.
Proof. apply num_be, width_ok. Qed.
Lemma width_le k n : k < 256 ^ N.of_nat n -> (width k <= n)%nat.
Proof.
  intros H. unfold width. change 256 with (2 ^ 8) in H. rewrite <- N.pow_mul_r in H.
  destruct (N.eq_dec k 0) as [->|Hk]; [apply Nat.le_0_l|].
  assert (N.size k <= 8 * N.of_nat n).
  { rewrite N.size_log2 by done. apply N.le_succ_l, N.log2_lt_pow2; [lia|done]. }
  assert ((N.size k + 7) / 8 <= N.of_nat n) as Hq; [|rewrite <- (Nat2N.id n); revert Hq; generalize ((N.size k + 7) / 8); intros; lia].
  apply N.lt_succ_r, N.div_lt_upper_bound; lia.
Qed.
Lemma get_int_top n k : k < 256 ^ N.of_nat n -> get_int n (top_num k) = Some k.
Proof.
  intros H. unfold get_int. rewrite (proj2 (Nat.leb_le _ _)), num_top; [done|].
  unfold top_num. rewrite be_length. by apply width_le.
Qed.
Lemma get_addr_top a : a < 2 ^ 256 -> get_addr (top_addr a) = Some a.
Proof. intros H. unfold get_addr, top_addr. rewrite be_length, num_be; [done|exact H]. Qed.
Lemma top_num_nil k : top_num k = [] <-> k = 0.
Proof. split; [|by intros ->]. intros H. by rewrite <- (num_top k), H. Qed.

Lemma read_bytes_app n l r : length l = n -> read_bytes n (l ++ r) = Some (l, r).
Proof.
  intros <-. unfold read_bytes. rewrite (proj2 (Nat.leb_le _ _)) by (rewrite app_length; lia).
  by rewrite take_app, drop_app.
Qed.
Lemma read_be_app n k r : k < 256 ^ N.of_nat n -> read_be n (be n k ++ r) = Some (k, r).
Proof. intros H. unfold read_be. rewrite read_bytes_app by apply be_length. by rewrite num_be. Qed.
Lemma read_num_app k r : fits_big k -> read_num (nest_num k ++ r) = Some (k, r).
Proof.
  intros H. unfold read_num, nest_num. rewrite <- app_assoc, read_be_app by exact H.
  rewrite Nat2N.id. unfold top_num. by rewrite read_be_app by apply width_ok.
Qed.
Lemma read_bool_app b r : read_bool (nest_bool b ++ r) = Some (b, r).
Proof. by destruct b. Qed.

Lemma record_back p : fits_prov p -> get_record (put_prov p) = Some p.
Proof.
  intros (Ha & Hn & Hy & HF). repeat (apply list.Forall_cons in HF; destruct HF as [? HF]).
  destruct p as [ad t k n y st un el ps pu]; cbn [p_admin p_total p_cap p_nodes p_apy p_staked p_unstaked p_elig p_pst p_pun] in *.
  unfold get_record, put_prov, whole, rd; cbn [p_admin p_total p_cap p_nodes p_apy p_staked p_unstaked p_elig p_pst p_pun].
  rewrite read_be_app by exact Ha. rewrite read_num_app by done. rewrite read_num_app by done.
  rewrite read_be_app by exact Hn. rewrite read_be_app by exact Hy. rewrite read_num_app by done.
  rewrite read_num_app by done. rewrite read_bool_app. rewrite read_num_app by done.
  rewrite <- (app_nil_r (nest_num pu)), read_num_app by done. done.
Qed.
Lemma attr_back x : fst x < 2 ^ 64 -> snd x < 2 ^ 64 -> get_attr (put_attr x) = Some x.
Proof.
  intros H1 H2. destruct x as [a b]; cbn [fst snd] in *. unfold get_attr, put_attr, whole, rd; cbn [fst snd].
  rewrite read_be_app by exact H1. rewrite <- (app_nil_r (be 8 b)), read_be_app by exact H2. done.
Qed.
Lemma scoring_back s : fits_scoring s -> get_scoring (put_scoring s) = Some s.
Proof.
  intros HF. unfold fits_scoring in HF. repeat (apply list.Forall_cons in HF; destruct HF as [? HF]).
  destruct s as [a b c d e f g h i j]; cbn [k_min_nodes k_max_nodes k_min_apy k_max_apy k_stake_w k_apy_w k_nodes_w k_max_score k_exp k_apy_mul] in *.
  unfold get_scoring, put_scoring, whole, rd; cbn [k_min_nodes k_max_nodes k_min_apy k_max_apy k_stake_w k_apy_w k_nodes_w k_max_score k_exp k_apy_mul].
  rewrite <- (app_nil_r (be 8 j)), <- ?app_assoc.
  repeat (rewrite read_be_app by assumption). done.
Qed.
