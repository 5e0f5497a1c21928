(** L_Abi.v — lemmas about Abi.v: calls, answers and events as bytes (C114 to C116). *)
From Coq Require Import String.
From Verif Require Export L_Typed Spec14.
Open Scope N_scope.

(** ** Numbers *)
Lemma fold_value l : forall a, fold_left (fun a b => 256 * a + b) l a = a * 256 ^ N.of_nat (List.length l) + value l.
Proof.
  induction l as [|b l IH]; intros a; cbn [fold_left value List.length]; [change (256 ^ N.of_nat 0) with 1; lia|].
  rewrite IH, pow256_S. lia.
Qed.
Lemma num_value l : num l = value l.
Proof. unfold num. rewrite fold_value. lia. Qed.
Lemma value_lt b : Forall (fun k => k < 256) b -> value b < 256 ^ N.of_nat (List.length b).
Proof.
  induction b as [|x b IH]; intros H; [done|]. apply list.Forall_cons in H as [Hx H]. apply IH in H.
  cbn [value List.length]. rewrite pow256_S. set (P := 256 ^ N.of_nat (List.length b)) in *. nia.
Qed.
Lemma value_big b : byte_string b -> fits_big (value b).
Proof. intros [H1 H2]. unfold fits_big. apply value_lt, width_le in H1. lia. Qed.
Lemma be_bytes n : forall k, Forall (fun x => x < 256) (be n k).
Proof.
  induction n as [|n IH]; intros k; cbn [be]; [constructor|]. apply list.Forall_app. split; [apply IH|].
  repeat constructor. apply N.mod_lt. lia.
Qed.

(** ** Formats *)
Lemma arg_big_iff b k : arg_big b = Some k <-> is_num k b.
Proof. unfold arg_big, is_num. rewrite num_value. split; [by intros [= ->]|by intros ->]. Qed.
Lemma arg_int_iff n b k : arg_int n b = Some k <-> is_int (N.of_nat n) k b.
Proof.
  unfold arg_int, is_int. rewrite num_value. destruct (value b <? 256 ^ N.of_nat n) eqn:E.
  - apply N.ltb_lt in E. split; [by intros [= <-]|by intros [-> _]].
  - apply N.ltb_ge in E. split; [done|]. intros [<- H]. lia.
Qed.
Lemma get_addr_iff b a : get_addr b = Some a <-> is_addr a b.
Proof.
  unfold get_addr, is_addr. rewrite num_value. destruct (List.length b =? 32)%nat eqn:E.
  - apply Nat.eqb_eq in E. split; [by intros [= <-]|by intros [_ ->]].
  - apply Nat.eqb_neq in E. split; [done|by intros [? _]].
Qed.
Lemma arg_bool_iff b x : arg_bool b = Some x <-> is_bool x b.
Proof.
  unfold arg_bool, is_bool. rewrite num_value.
  destruct (N.eqb_spec (value b) 0) as [H0|H0]; [|destruct (N.eqb_spec (value b) 1) as [H1|H1]]; destruct x; split; intros H;
    try done; try congruence; lia.
Qed.
Lemma read_be_inv {A} n (f : N -> reader A) l x : rd (read_be n) f l = Some x ->
  exists p r, l = p ++ r /\ List.length p = n /\ f (value p) r = Some x.
Proof.
  unfold rd, read_be, read_bytes. destruct (n <=? List.length l)%nat eqn:E; [|done]. apply Nat.leb_le in E.
  intros H. exists (take n l), (drop n l). rewrite take_drop, <- num_value. split; [done|]. split; [|done].
  rewrite take_length. lia.
Qed.
Lemma read_be_on {A} n (f : N -> reader A) p r : List.length p = n -> rd (read_be n) f (p ++ r) = f (value p) r.
Proof. intros H. unfold rd, read_be. rewrite read_bytes_app by done. by rewrite num_value. Qed.
Lemma scoring_iff b s : get_scoring b = Some s <-> is_scoring s b.
Proof.
  split.
  - unfold get_scoring, whole. intros H.
    match type of H with match ?x with _ => _ end = _ => destruct x as [[s' r]|] eqn:E; [|done] end.
    destruct r; [|done]. injection H as ->.
    repeat match type of E with rd _ _ _ = _ => let p := fresh "p" in let r := fresh "r" in
      apply read_be_inv in E as (p & r & -> & ? & E) end.
    unfold yield in E. injection E as <- ->.
    eexists [_; _; _; _; _; _; _; _; _; _]. split; [cbn [List.concat]; reflexivity|]. repeat constructor; done.
  - intros (parts & -> & H).
    repeat match goal with H : Forall2 _ (_ :: _) _ |- _ => let K := fresh "K" in apply list.Forall2_cons_inv_l in H as (? & ? & (? & ?) & K & ->) end.
    match goal with H : Forall2 _ [] _ |- _ => apply list.Forall2_nil_inv_l in H as -> end. cbn [List.concat]. unfold get_scoring, whole.
    repeat rewrite read_be_on by done. unfold yield. destruct s; cbn in *. by subst.
Qed.

(** ** Calls *)
Lemma text_inj a : forall b, text a = text b -> a = b.
Proof.
  induction a as [|c a IH]; intros [|d b]; cbn [text]; try done. intros [= H1 H2]. apply IH in H2 as ->.
  rewrite <- (Ascii.ascii_N_embedding c), H1, Ascii.ascii_N_embedding. done.
Qed.
Lemma text_eqb a b : bool_decide (text a = text b) = String.eqb a b.
Proof.
  destruct (String.eqb_spec a b) as [->|H]; [by apply bool_decide_eq_true_2|]. apply bool_decide_eq_false_2. intros K. by apply text_inj in K.
Qed.
Lemma find_text {A} n (l : list (string * A)) :
  List.find (fun x => bool_decide (text (fst x) = text n)) l = List.find (fun x => String.eqb (fst x) n) l.
Proof. induction l as [|x l IH]; [done|]. cbn [List.find]. by rewrite text_eqb, IH. Qed.
Ltac names := unfold decode_call; rewrite find_text; unfold endpoints; cbn [List.find fst snd String.eqb Ascii.eqb Bool.eqb].
Lemma any_inv {B} (f : list addr -> B) l : forall x, any_number get_addr f l = Some x <-> exists as_, x = f as_ /\ are (map is_addr as_) l.
Proof.
  revert f. induction l as [|b l IH]; intros f x; cbn [any_number].
  - split; [intros [= <-]; exists []; split; [done|constructor]|]. intros (as_ & -> & H). apply list.Forall2_nil_inv_r in H.
    by destruct as_.
  - destruct (get_addr b) as [a|] eqn:E.
    + apply get_addr_iff in E. rewrite IH. split.
      * intros (as_ & -> & H). exists (a :: as_). split; [done|]. by constructor.
      * intros (as_ & -> & H). destruct as_ as [|a' as_]; [inversion H|]. cbn [map] in H. apply list.Forall2_cons in H as [H1 H].
        exists as_. split; [|done]. destruct E as [_ <-], H1 as [_ <-]. done.
    + split; [done|]. intros (as_ & -> & H). destruct as_ as [|a' as_]; [inversion H|]. cbn [map] in H. apply list.Forall2_cons in H as [H1 H].
      apply get_addr_iff in H1. by rewrite H1 in E.
Qed.

Ltac formats := repeat match goal with
  | H : arg_big _ = Some _ |- _ => apply arg_big_iff in H
  | H : arg_int _ _ = Some _ |- _ => apply arg_int_iff in H
  | H : get_addr _ = Some _ |- _ => apply get_addr_iff in H
  | H : arg_bool _ = Some _ |- _ => apply arg_bool_iff in H
  | H : get_scoring _ = Some _ |- _ => apply scoring_iff in H
  end.
Ltac take_args H := repeat match type of H with
  | Some _ = Some _ => injection H as <-
  | None = Some _ => discriminate H
  | no_more _ ?l = Some _ => destruct l; cbn [no_more] in H
  | arg _ _ ?l = Some _ => destruct l; cbn [arg] in H
  | at_most_one _ _ ?l = Some _ => destruct l; cbn [at_most_one arg] in H
  | match ?g with _ => _ end = Some _ => destruct g eqn:?
  end.

Lemma understood ok f args ep : decode_call ok f args = Some ep -> means ok f args ep.
Proof.
  unfold decode_call, endpoints. cbn [List.find fst snd].
  repeat (case_bool_decide as Hf; [clear - Hf; subst f; cbn [snd]; intros H|clear Hf]); [..|done].
  all: try (apply any_inv in H as (l & -> & H); split; [done|]; split; [exact H|done]).
  all: take_args H; formats; (split; [reflexivity|]); (split; [|done]); cbn [parameters]; unfold are;
    repeat apply List.Forall2_cons; try apply List.Forall2_nil; try done.
  all: match goal with H : is_int _ _ _ |- is_decimals _ => destruct H as [<- H]; exact H end.
Qed.
Ltac give_args := repeat match goal with
  | H : Forall2 _ (_ :: _) _ |- _ => let K := fresh "K" in apply list.Forall2_cons_inv_l in H as (? & ? & ? & K & ->)
  | H : Forall2 _ [] _ |- _ => apply list.Forall2_nil_inv_l in H as ->
  end.
Ltac unformat := cbn [arg at_most_one no_more]; repeat match goal with
  | H : is_num _ ?b |- context [arg_big ?b] => apply arg_big_iff in H; rewrite H; cbn [arg no_more]
  | H : is_int 8 _ ?b |- context [arg_int 8 ?b] => apply (arg_int_iff 8) in H; rewrite H; cbn [arg no_more]
  | H : is_int 4 _ ?b |- context [arg_int 4 ?b] => apply (arg_int_iff 4) in H; rewrite H; cbn [arg no_more]
  | H : is_decimals ?b |- context [arg_int 4 ?b] =>
      let K := fresh "K" in assert (is_int 4 (value b) b) as K by (by split); apply (arg_int_iff 4) in K; rewrite K; cbn [arg no_more]
  | H : is_addr _ ?b |- context [get_addr ?b] => apply get_addr_iff in H; rewrite H; cbn [arg no_more]
  | H : is_bool _ ?b |- context [arg_bool ?b] => apply arg_bool_iff in H; rewrite H; cbn [arg no_more]
  | H : is_scoring _ ?b |- context [get_scoring ?b] => apply scoring_iff in H; rewrite H; cbn [arg no_more]
  end.
Lemma understands ok f args ep : means ok f args ep -> decode_call ok f args = Some ep.
Proof.
  intros (-> & H & Hc). unfold are in H. destruct ep; cbn [name parameters] in *; names;
  try (match goal with x : option N |- _ => destruct x end);
  try (by apply any_inv; eexists);
  give_args; unformat; subst; reflexivity.
Qed.
Lemma understood_iff ok f args ep : decode_call ok f args = Some ep <-> means ok f args ep.
Proof. split; [apply understood|apply understands]. Qed.

(** Every endpoint can be called with any parameters that fit. *)
Lemma top_num_string k : fits_big k -> byte_string (top_num k) /\ is_num k (top_num k).
Proof.
  intros H. split; [split; [apply be_bytes|]|unfold is_num; by rewrite <- num_value, num_top].
  unfold top_num. rewrite be_length. exact H.
Qed.
Lemma top_int_string n k : (n <= 8)%nat -> k < 256 ^ N.of_nat n -> byte_string (top_num k) /\ is_int (N.of_nat n) k (top_num k).
Proof.
  intros Hn H. assert (fits_big k) as Hb.
  { unfold fits_big. apply width_le in H. lia. }
  apply top_num_string in Hb as [H1 H2]. split; [done|]. by split.
Qed.
Lemma top_u64 k : k < 2 ^ 64 -> byte_string (top_num k) /\ is_int 8 k (top_num k).
Proof. intros H. apply (top_int_string 8); [lia|]. replace (256 ^ N.of_nat 8) with (2 ^ 64) by reflexivity. exact H. Qed.
Lemma top_u32 k : k < 2 ^ 32 -> byte_string (top_num k) /\ is_int 4 k (top_num k).
Proof. intros H. apply (top_int_string 4); [lia|]. replace (256 ^ N.of_nat 4) with (2 ^ 32) by reflexivity. exact H. Qed.
Lemma top_addr_string a : a < 2 ^ 256 -> byte_string (top_addr a) /\ is_addr a (top_addr a).
Proof.
  intros H. split; [split; [apply be_bytes|unfold top_addr; rewrite be_length; done]|].
  apply get_addr_iff. by apply get_addr_top.
Qed.
Lemma are_cons (P : bytes -> Prop) ps b : byte_string b /\ P b -> (exists args, Forall byte_string args /\ are ps args) ->
  exists args, Forall byte_string args /\ are (P :: ps) args.
Proof. intros [H1 H2] (args & H3 & H4). exists (b :: args). split; by constructor. Qed.
Lemma are_nil : exists args, Forall byte_string args /\ are [] args.
Proof. exists []. split; constructor. Qed.
Lemma empty_string : byte_string []. Proof. split; [constructor|done]. Qed.
Lemma empty_decimals : byte_string [] /\ is_decimals [].
Proof. split; [apply empty_string|]. unfold is_decimals. cbn [value]. lia. Qed.
Lemma bool_string (x : bool) : byte_string (top_num (if x then 1 else 0)) /\ is_bool x (top_num (if x then 1 else 0)).
Proof. destruct x; (split; [split; [repeat constructor|]; done|done]). Qed.
Lemma scoring_string s : fits_scoring s -> byte_string (put_scoring s) /\ is_scoring s (put_scoring s).
Proof.
  intros H. split.
  - split; [|done]. unfold put_scoring. repeat first [apply be_bytes|apply list.Forall_app; split].
  - by apply scoring_iff, scoring_back.
Qed.
Lemma addr_strings (l : list N) : Forall (fun a => a < 2 ^ 256) l -> exists args, Forall byte_string args /\ are (map is_addr l) args.
Proof.
  induction 1 as [|a l Ha _ IH]; [apply are_nil|]. eapply are_cons; [by apply top_addr_string|exact IH].
Qed.
Lemma u64_is : U64 = 2 ^ 64. Proof. reflexivity. Qed.
Lemma u32_is : U32 = 2 ^ 32. Proof. reflexivity. Qed.
Lemma writable ep : expressible ep -> exists args, Forall byte_string args /\ are (parameters ep) args.
Proof.
  intros (H1 & H2 & H3).
  destruct ep; cbn [parameters addresses numbers] in *;
    try (match goal with x : option N |- _ => destruct x end);
    try (apply addr_strings; assumption);
    repeat match goal with H : Forall _ (_ :: _) |- _ => let K := fresh "K" in apply list.Forall_cons in H as [K H] end;
    cbn [args_ok] in H1; rewrite ?andb_true_iff, ?N.ltb_lt, ?u64_is, ?u32_is in H1; destruct_and?;
    repeat (first [eapply are_cons|apply are_nil]);
    match goal with
    | |- _ /\ is_num _ _ => apply top_num_string; assumption
    | |- _ /\ is_addr _ _ => apply top_addr_string; assumption
    | |- _ /\ is_int 8 _ _ => apply top_u64; assumption
    | |- _ /\ is_int 4 _ _ => apply top_u32; assumption
    | |- _ /\ is_bool _ _ => apply bool_string
    | |- _ /\ is_text _ => split; [apply empty_string|exact I]
    | |- _ /\ is_decimals _ => apply empty_decimals
    | |- _ /\ is_scoring _ _ => apply scoring_string; unfold fits_scoring; repeat apply List.Forall_cons; try apply List.Forall_nil; assumption
    end.
Qed.
Lemma callable ok ep : expressible ep -> (forall b, ep = ClaimFees b -> b = ok) ->
  exists args, Forall byte_string args /\ means ok (text (name ep)) args ep.
Proof.
  intros H Hc. destruct (writable ep H) as (args & Ha & Hb).
  exists args. split; [exact Ha|]. split; [reflexivity|]. split; [exact Hb|]. destruct ep; try exact I. by apply Hc.
Qed.

(** ** Histories *)
Lemma means_typed ok f args ep u a p : Forall byte_string args -> means ok f args ep -> typed (OTx u a p ep).
Proof.
  intros Hb (_ & H & _). unfold are in H.
  assert (forall x b, byte_string b -> is_addr x b -> x < 2 ^ 256) as HA.
  { intros x b [B1 _] [L <-]. apply value_lt in B1. rewrite L in B1. exact B1. }
  assert (forall x b, byte_string b -> is_num x b -> fits_big x) as HN.
  { intros x b B1 <-. by apply value_big. }
  destruct ep; cbn [typed parameters] in *; try done; give_args;
    repeat match goal with H : Forall byte_string (_ :: _) |- _ => let K := fresh "K" in apply list.Forall_cons in H as [K H] end;
    repeat apply conj;
    try match goal with
    | H : is_addr ?x ?b |- ?x < _ => apply (HA x b); assumption
    | H : is_num ?x ?b |- fits_big ?x => apply (HN x b); assumption
    end.
  revert args H Hb. induction l as [|x l IH]; intros args H Hb; [constructor|]. cbn [map] in H.
  apply list.Forall2_cons_inv_l in H as (b & args' & H1 & H2 & ->).
  apply list.Forall_cons in Hb as [B Hb]. constructor; [by eapply HA|]. by apply (IH args').
Qed.
Lemma nonsense_refused w : step w nonsense = (set_log [] w, SErr EInvalid).
Proof. reflexivity. Qed.
Lemma not_understood ok f args : (forall ep, ~ means ok f args ep) -> decode_call ok f args = None.
Proof. intros H. destruct (decode_call ok f args) as [ep|] eqn:E; [|done]. apply understood in E. by apply H in E. Qed.
Lemma stands_step w x o : stands_for x o -> fst (act_step w x) = fst (step w o).
Proof.
  destruct x as [u a p ok f args|o']; cbn [stands_for act_step]; [|by intros ->].
  intros [(ep & Hm & ->)|[Hn ->]]; unfold step_bytes.
  - by rewrite (understands _ _ _ _ Hm).
  - by rewrite (not_understood _ _ _ Hn).
Qed.
Lemma stands_run xs os : Forall2 stands_for xs os -> forall w, act_run w xs = run w os.
Proof. induction 1 as [|x o xs os Hx _ IH]; intros w; [done|]. cbn [act_run run]. by rewrite IH, (stands_step w x o Hx). Qed.
Lemma stands_exist x : exists o, stands_for x o.
Proof.
  destruct x as [u a p ok f args|o]; [|by exists o]. cbn [stands_for].
  destruct (decode_call ok f args) as [ep|] eqn:E.
  - exists (OTx u a p ep). left. exists ep. split; [by apply understood|done].
  - exists nonsense. right. split; [|done]. intros ep H. apply understands in H. by rewrite H in E.
Qed.
Lemma stands_unique x o o' : stands_for x o -> stands_for x o' -> o = o'.
Proof.
  destruct x as [u a p ok f args|o'']; cbn [stands_for]; [|by intros -> ->].
  intros [(ep & Hm & ->)|[Hn ->]] [(ep' & Hm' & ->)|[Hn' ->]]; try done.
  - apply understands in Hm, Hm'. rewrite Hm in Hm'. by injection Hm' as <-.
  - by apply Hn' in Hm.
  - by apply Hn in Hm'.
Qed.
Lemma histories w xs : exists os, Forall2 stands_for xs os /\ forall n, act_run w (take n xs) = run w (take n os).
Proof.
  assert (exists os, Forall2 stands_for xs os) as [os H].
  { induction xs as [|x xs [os IH]]; [exists []; constructor|]. destruct (stands_exist x) as [o Ho]. exists (o :: os). by constructor. }
  exists os. split; [done|]. intros n. by apply stands_run, list.Forall2_take.
Qed.
Lemma stands_typed xs os : Forall proper xs -> Forall2 stands_for xs os -> Forall typed os.
Proof.
  intros Hp H. induction H as [|x o xs os Hx _ IH]; [constructor|]. apply list.Forall_cons in Hp as [Hp0 Hp].
  constructor; [|by apply IH]. destruct x as [u a p ok f args|o']; cbn [stands_for proper] in *.
  - destruct Hx as [(ep & Hm & ->)|[_ ->]]; [by eapply means_typed|done].
  - subst o'. by destruct o.
Qed.

(** ** Deployment *)
Lemma deploy_iff owner epoch args w : deploy_bytes owner epoch args = Ok w <->
  exists acc fees rpe minr maxsel maxaddr unbond,
    are (init_parameters acc fees rpe minr maxsel maxaddr unbond) args
    /\ deploy owner acc fees rpe minr maxsel maxaddr unbond epoch = Ok w.
Proof.
  unfold deploy_bytes. split.
  - match goal with |- match ?x with _ => _ end = _ -> _ => destruct x as [r|] eqn:E; [|done] end. intros Hr.
    take_args E; formats; do 7 eexists; (split; [|exact Hr]); unfold are, init_parameters;
      repeat apply List.Forall2_cons; try apply List.Forall2_nil; assumption.
  - intros (acc & fees & rpe & minr & maxsel & maxaddr & unbond & H & Hd). unfold are, init_parameters in H. give_args. unformat. done.
Qed.

From Verif Require Import L_Lists L_Frame L_Ust L_Books L_Batch L_Net L_Access L_Last.
(** ** The storage *)
Lemma bytes_storage owner epoch args w xs os : Forall byte_string args -> deploy_bytes owner epoch args = Ok w ->
  Forall proper xs -> Forall2 stands_for xs os ->
  tally receives w os < 2 ^ 256 -> tally names_managers w os < 2 ^ 32 -> N.of_nat (List.length xs) < 2 ^ 64 ->
  tally insertions w os < 2 ^ 32 ->
  exists ms s, each do_call ms (fun _ => []) = Some s /\ keeps_up s w os.
Proof.
  intros Hb Hd Hp Hs H1 H2 H3 H4. apply deploy_iff in Hd as (acc & fees & rpe & minr & maxsel & maxaddr & unbond & Ha & Hd).
  assert (c_acc (w_cfg w) < 2 ^ 256) as Hacc.
  { unfold are, init_parameters in Ha. apply list.Forall2_cons_inv_l in Ha as (b & r & [L V] & _ & ->).
    apply list.Forall_cons in Hb as [[B _] _]. apply value_lt in B. rewrite L in B.
    unfold deploy in Hd. apply rbind_ok in Hd as [[] [_ Hd]]. apply rbind_ok in Hd as [g [Eg Hd]]. rstep Hd.
    unfold init in Eg. apply rbind_ok in Eg as [[] [_ Eg]]. apply rbind_ok in Eg as [[] [_ Eg]]. rstep Eg.
    cbn [w_cfg c_acc]. exact B. }
  apply keeps_up_typed; try done.
  - by do 9 eexists.
  - by eapply stands_typed.
  - by rewrite <- (list.Forall2_length _ _ _ Hs).
Qed.

(** ** Answers *)
Lemma query_text n args s : query (text n) args s =
  match List.find (fun x => String.eqb (fst x) n) views with Some x => snd x s args | None => None end.
Proof. unfold query. by rewrite find_text. Qed.
Ltac ask := rewrite query_text; unfold views; cbn [List.find fst snd String.eqb Ascii.eqb Bool.eqb plain].
Lemma get_opt_inv {A} (get : bytes -> option A) l x : get [] = None -> get_opt get l = Some x -> get l = x.
Proof. intros H0 H. unfold get_opt in H. destruct l as [|b l]; [injection H as <-; exact H0|]. destruct (get (b :: l)); congruence. Qed.
Lemma views_show s w : reads s w -> shows s w.
Proof.
  intros (R1 & R2 & R3 & R4 & R5 & R6 & R7 & R8 & R9 & R10 & R11 & R12 & R13 & R14 & R15 & R16 & R17 & R18 & R19 & R20 & R21
          & R22 & R23 & R24 & R25 & R26 & R27).
  assert (forall f : pool -> res N, match cache_at s with Some c => computed (f c) | None => None end = sent (rbind (cache_new w) f)) as Hcache.
  { intros f. unfold cache_at. rewrite R1. unfold cache_new, ls_token_id. rewrite <- R11. unfold get_token.
    destruct (decide (s (key ILsToken) = [])) as [E|E].
    - rewrite bool_decide_eq_true_2 by exact E. reflexivity.
    - rewrite bool_decide_eq_false_2 by exact E. destruct (decide (s (key ILsToken) = text "pending")) as [E'|E'].
      + rewrite bool_decide_eq_true_2 by exact E'. reflexivity.
      + rewrite bool_decide_eq_false_2 by exact E'. cbn [orb]. rewrite R15, R16, R17, R18, R19, R20, R21.
        cbn [rbind]. destruct (w_pool w). reflexivity. }
  assert (forall c, c < 2 ^ 256 -> record_at c s = w_pv w !! c) as Hrec.
  { intros c Hc. unfold record_at. apply get_opt_inv; [reflexivity|]. by apply R26. }
  apply get_opt_inv in R9; [|reflexivity]. apply get_opt_inv in R10; [|reflexivity].
  assert (forall c b, byte_string b -> is_addr c b -> c < 2 ^ 256) as HA.
  { intros x b [B1 _] [L <-]. apply value_lt in B1. rewrite L in B1. exact B1. }
  unfold shows. cbn zeta. unfold get_num in *.
  repeat apply conj.
  all: try (intros; ask; unfold answer, arg_big; congruence).
  all: try (ask; unfold answer; match goal with H : _ = Some _ |- _ => rewrite H; reflexivity end).
  - ask. unfold answer. rewrite R9. by destruct (c_score (w_cfg w)).
  - ask. unfold answer. rewrite R10. by destruct (c_migr (w_cfg w)).
  - ask. fold MGR. by rewrite R13.
  - ask. fold DL. by rewrite R22.
  - ask. fold UL. by rewrite R24.
  - ask. unfold rate_at, view_exchange_rate, get_num. rewrite R15, R16. cbn zeta. by destruct (supply (w_pool w) =? 0).
  - intros x b H. ask. cbn [with_arg]. apply arg_big_iff in H. rewrite H. apply (Hcache (get_egld_amount x)).
  - intros x b H. ask. cbn [with_arg]. apply arg_big_iff in H. rewrite H. apply (Hcache (get_ls_amount x)).
  - intros c b Hb H. ask. cbn [with_arg]. pose proof (HA c b Hb H) as Hc. apply get_addr_iff in H. rewrite H.
    unfold answer. apply Hrec in Hc. unfold record_at in Hc. rewrite Hc. by destruct (w_pv w !! c).
  - intros c b Hb H. ask. cbn [with_arg]. pose proof (HA c b Hb H) as Hc. apply get_addr_iff in H. rewrite H.
    rewrite Hrec by exact Hc. unfold view_staked, get_prov. by destruct (w_pv w !! c).
  - intros c b Hb H. ask. cbn [with_arg]. pose proof (HA c b Hb H) as Hc. apply get_addr_iff in H. rewrite H.
    rewrite Hrec by exact Hc. unfold view_unstaked, get_prov. by destruct (w_pv w !! c).
  - intros e b H. ask. cbn [with_arg]. assert (e < 2 ^ 64) as He by apply H. apply (arg_int_iff 8) in H. rewrite H.
    unfold answer. apply R27 in He. unfold get_opt in He. destruct (s (key (INonce e))) as [|x l].
    + by injection He as <-.
    + destruct (get_int 8 (x :: l)); [|done]. by injection He as <-.
Qed.
Lemma only_views f args s r : query f args s = Some r ->
  Exists (fun n => f = text n) view_names /\ forall ok args' ep, ~ means ok f args' ep.
Proof.
  unfold query. destruct (List.find _ views) as [x|] eqn:E; [|done]. intros _. apply List.find_some in E as [Hin Hf].
  apply bool_decide_eq_true_1 in Hf. subst f.
  assert (Exists (fun n => fst x = n) view_names) as Hn.
  { apply list.Exists_exists. exists (fst x). split; [|done]. apply elem_of_list_In. change view_names with (map fst views). by apply in_map. }
  split.
  - eapply list.Exists_impl; [exact Hn|]. by intros n <-.
  - intros ok args' ep (H & _). apply text_inj in H. rewrite H in Hn. clear -Hn. apply list.Exists_exists in Hn as (n & Hn & <-).
    assert (forallb (fun n => negb (String.eqb (name ep) n)) view_names = true) as K by (by destruct ep).
    rewrite forallb_forall in K. apply elem_of_list_In, K in Hn. by rewrite String.eqb_refl in Hn.
Qed.

(** ** Events *)
Lemma plain_takes v s args r : plain v s args = Some r -> args = [].
Proof. by destruct args. Qed.
Lemma with_takes {A} (get : bytes -> option A) v s args r : with_arg get v s args = Some r -> exists b a, args = [b] /\ get b = Some a.
Proof. destruct args as [|b [|? ?]]; cbn [with_arg]; try done. destruct (get b) as [a|] eqn:E; [|done]. by exists b, a. Qed.
Lemma views_take : Forall (fun x => forall s args r, snd x s args = Some r -> asked_with (fst x) args) views.
Proof.
  unfold views.
  repeat (apply List.Forall_cons; [intros s args r H; cbn [fst snd] in *; unfold asked_with;
    cbn [existsb String.eqb Ascii.eqb Bool.eqb orb];
    first [by apply plain_takes in H|apply with_takes in H as (b & a & -> & H)]|]); [..|constructor].
  all: try (apply get_addr_iff in H; by exists a, b).
  all: try (apply (arg_int_iff 8) in H; by exists a, b).
  all: by exists b.
Qed.
Lemma query_takes n args s r : query (text n) args s = Some r -> asked_with n args.
Proof.
  unfold query. destruct (List.find _ views) as [x|] eqn:E; [|done]. intros H. apply List.find_some in E as [Hin Hf].
  apply bool_decide_eq_true_1, text_inj in Hf. subst n.
  pose proof views_take as K. rewrite List.Forall_forall in K. exact (K x Hin _ _ _ H).
Qed.
Lemma read_buf_app l r : N.of_nat (List.length l) < 2 ^ 32 -> read_buf (nest_buf l ++ r) = Some (l, r).
Proof.
  intros H. unfold read_buf, nest_buf. rewrite <- app_assoc, read_be_app by exact H. by rewrite Nat2N.id, read_bytes_app.
Qed.
Lemma rd_on {A B} (x : reader A) (f : A -> reader B) l a r : x (l ++ r) = Some (a, r) -> rd x f (l ++ r) = f a r.
Proof. intros H. unfold rd. by rewrite H. Qed.
Lemma change_back token block time who p epoch : N.of_nat (List.length token) < 2 ^ 32 -> block < 2 ^ 64 -> time < 2 ^ 64 ->
  fits_change who p epoch -> read_change (put_change token block time who p epoch) = Some (Change who token p block epoch time).
Proof.
  intros Ht Hb Hm (Hw & He & Hp). unfold read_change, put_change, Codec.whole.
  repeat match goal with H : Forall _ (_ :: _) |- _ => let K := fresh "K" in apply list.Forall_cons in H as [K H] end.
    rewrite (rd_on _ _ _ who) by (by apply read_be_app). rewrite (rd_on _ _ _ token) by (by apply read_buf_app).
  rewrite (rd_on _ _ _ (supply p)) by (by apply read_num_app). rewrite (rd_on _ _ _ (reserve p)) by (by apply read_num_app).
  rewrite (rd_on _ _ _ (fees_res p)) by (by apply read_num_app). rewrite (rd_on _ _ _ (withdrawn p)) by (by apply read_num_app).
  rewrite (rd_on _ _ _ (pend p)) by (by apply read_num_app). rewrite (rd_on _ _ _ (pfu p)) by (by apply read_num_app).
  rewrite (rd_on _ _ _ (pfb p)) by (by apply read_num_app).
  rewrite (rd_on _ _ _ block) by (by apply read_be_app). rewrite (rd_on _ _ _ epoch) by (by apply read_be_app).
  rewrite <- (app_nil_r (be 8 time)). rewrite (rd_on _ _ _ time) by (by apply read_be_app). by destruct p.
Qed.
Lemma event_back token block time x l : N.of_nat (List.length token) < 2 ^ 32 -> block < 2 ^ 64 -> time < 2 ^ 64 -> fits_event x ->
  topics token block time x = Some l -> tells token block time x = read_event l /\ read_event l <> None.
Proof.
  intros Ht Hb Hm Hx H.
  destruct x; cbn [topics] in H; try discriminate H; injection H as <-; cbn [read_event tells fits_event] in *;
    rewrite ?text_eqb; cbn [String.eqb Ascii.eqb Bool.eqb List.find]; rewrite ?text_eqb; cbn [String.eqb Ascii.eqb Bool.eqb].
  all: try match goal with |- context [read_change _] => rewrite change_back by (try done; apply Hx) end.
  all: unfold get_num; rewrite ?num_top; try done.
  - rewrite get_addr_top by apply Hx. done.
  - rewrite get_int_top by exact Hx. done.
Qed.

Lemma event_told token block time x : N.of_nat (List.length token) < 2 ^ 32 -> block < 2 ^ 64 -> time < 2 ^ 64 -> fits_event x ->
  (forall t, tells token block time x = Some t <-> exists l, topics token block time x = Some l /\ read_event l = Some t)
  /\ forall l, topics token block time x = Some l -> read_event l <> None.
Proof.
  intros H1 H2 H3 H4. split.
  - intros t. split.
    + intros Ht. destruct (topics token block time x) as [l|] eqn:E; [|destruct x; discriminate].
      exists l. split; [done|]. apply event_back in E as [<- _]; done.
    + intros (l & E & Hl). apply event_back in E as [-> _]; done.
  - intros l E. by apply event_back in E as [_ ?].
Qed.
Lemma topics_are_events token block time x l : topics token block time x = Some l -> forall k, learns k x =
  match tells token block time x with Some (TChange _ _ _ c) => ce_pool c | _ => k end.
Proof. by destruct x. Qed.
Lemma learns_same token block time e k : N.of_nat (List.length token) < 2 ^ 32 -> block < 2 ^ 64 -> time < 2 ^ 64 -> fits_event e ->
  learns_bytes token block time k e = learns k e.
Proof.
  intros H1 H2 H3 H4. unfold learns_bytes. destruct (topics token block time e) as [l|] eqn:E.
  - destruct (event_back _ _ _ _ _ H1 H2 H3 H4 E) as [H _]. rewrite (topics_are_events _ _ _ _ _ E k), H. done.
  - by destruct e.
Qed.
Lemma watched_bytes_run token clock os : N.of_nat (List.length token) < 2 ^ 32 ->
  (forall n, fst (clock n) < 2 ^ 64 /\ snd (clock n) < 2 ^ 64) ->
  forall n w, events_fit w os -> watched_bytes token clock n (w_pool w) w os = w_pool (run w os).
Proof.
  intros Ht Hc n w He. rewrite <- (L_Last.watched_run w os). generalize (w_pool w). revert n w He.
  induction os as [|o os IH]; intros n w He k; [done|]. cbn [watched_bytes watched events_fit] in *. destruct He as [He Hr].
  cbv zeta. rewrite (IH (S n) _ Hr). f_equal. destruct (Hc n) as [C1 C2]. revert k. clear -Ht C1 C2 He.
  induction He as [|e l Hf _ IHl]; intros k; [done|]. cbn [fold_left]. rewrite learns_same by done. apply IHl.
Qed.
Lemma topics_inj token block time x token' block' time' x' l :
  N.of_nat (List.length token) < 2 ^ 32 -> block < 2 ^ 64 -> time < 2 ^ 64 -> fits_event x ->
  N.of_nat (List.length token') < 2 ^ 32 -> block' < 2 ^ 64 -> time' < 2 ^ 64 -> fits_event x' ->
  topics token block time x = Some l -> topics token' block' time' x' = Some l -> x = x'.
Proof.
  intros H1 H2 H3 H4 H1' H2' H3' H4' E E'. destruct (event_back _ _ _ _ _ H1 H2 H3 H4 E) as [K Kn].
  destruct (event_back _ _ _ _ _ H1' H2' H3' H4' E') as [K' _]. rewrite <- K' in K. clear -K E.
  destruct x, x'; cbn [topics tells] in *; try discriminate; by injection K; intros; subst.
Qed.

(** ** Refused calls *)
Lemma refused_names f w caller egld pays ok args : Exists (fun n => f = text n) not_endpoints ->
  fst (step_bytes w caller egld pays ok f args) = set_log [] w.
Proof.
  intros H. unfold step_bytes. rewrite not_understood; [done|]. intros ep (Hf & _). subst f.
  apply list.Exists_exists in H as (n & Hn & H). apply text_inj in H. subst n.
  assert (forallb (fun n => negb (String.eqb (name ep) n)) not_endpoints = true) as K by (by destruct ep).
  rewrite forallb_forall in K. apply elem_of_list_In, K in Hn. by rewrite String.eqb_refl in Hn.
Qed.
Lemma calls w caller egld pays ok f args :
  (forall ep, means ok f args ep -> step_bytes w caller egld pays ok f args = step w (OTx caller egld pays ep))
  /\ ((forall ep, ~ means ok f args ep) -> fst (step_bytes w caller egld pays ok f args) = set_log [] w).
Proof.
  split; unfold step_bytes; intros.
  - by erewrite understands.
  - by rewrite not_understood.
Qed.
Lemma one_meaning ok f args ep ep' : means ok f args ep -> means ok f args ep' -> ep = ep'.
Proof. intros H H'. apply understands in H, H'. rewrite H in H'. by injection H'. Qed.
Lemma scoring_fits s b : byte_string b -> is_scoring s b -> args_ok (SetScoringConfig s) = true.
Proof.
  intros [B _] (parts & -> & K).
  repeat match goal with H : Forall2 _ (_ :: _) _ |- _ => let K := fresh "K" in apply list.Forall2_cons_inv_l in H as (? & ? & (? & ?) & K & ->) end.
  match goal with H : Forall2 _ [] _ |- _ => apply list.Forall2_nil_inv_l in H as -> end. cbn [List.concat] in B.
  repeat match goal with B : Forall _ (_ ++ _) |- _ => let K := fresh "B" in apply list.Forall_app in B as [K B] end.
  repeat match goal with B : Forall _ ?p, L : List.length ?p = _ |- _ => apply value_lt in B; rewrite L in B end.
  repeat match goal with V : value ?p = _, B : value ?p < _ |- _ => rewrite V in B end.
  cbn [args_ok]. rewrite !andb_true_iff, !N.ltb_lt, !u64_is. repeat apply conj; assumption.
Qed.
Lemma addr_fits x b : byte_string b -> is_addr x b -> x < 2 ^ 256.
Proof. intros [B1 _] [L <-]. apply value_lt in B1. rewrite L in B1. exact B1. Qed.
Lemma num_fits x b : byte_string b -> is_num x b -> fits_big x.
Proof. intros B1 <-. by apply value_big. Qed.
Lemma u64_fits x b : is_int 8 x b -> x < U64. Proof. intros [_ H]. exact H. Qed.
Lemma u32_fits x b : is_int 4 x b -> x < U32. Proof. intros [_ H]. exact H. Qed.
Lemma means_fits ok f args ep : Forall byte_string args -> means ok f args ep -> expressible ep.
Proof.
  intros Hb (_ & H & _). unfold are in H.
  destruct ep; try (match goal with x : option N |- _ => destruct x end); cbn [parameters] in *;
    try lazymatch type of H with Forall2 _ (map _ _) _ => idtac | _ => give_args end;
    repeat match goal with H : Forall byte_string (_ :: _) |- _ => let K := fresh "K" in apply list.Forall_cons in H as [K H] end;
    (split; [|split]); cbn [args_ok addresses numbers]; try reflexivity;
    rewrite ?andb_true_iff, ?N.ltb_lt; try apply conj; repeat apply List.Forall_cons; try apply List.Forall_nil;
    try match goal with
    | H : is_int 8 ?x _ |- ?x < U64 => exact (u64_fits _ _ H)
    | H : is_int 4 ?x _ |- ?x < U32 => exact (u32_fits _ _ H)
    | B : byte_string ?b, H : is_addr ?x ?b |- ?x < _ => exact (addr_fits _ _ B H)
    | B : byte_string ?b, H : is_num ?x ?b |- fits_big ?x => exact (num_fits _ _ B H)
    end.
  - revert args H Hb. induction l as [|x l IH]; intros args H Hb; [constructor|]. cbn [map] in H.
    apply list.Forall2_cons_inv_l in H as (b & args' & H1 & H2 & ->).
    apply list.Forall_cons in Hb as [B Hb]. constructor; [by eapply addr_fits|]. by apply (IH args').
  - match goal with B : byte_string ?b, H : is_scoring _ ?b |- _ => pose proof (scoring_fits _ _ B H) as Z end.
    cbn [args_ok] in Z. rewrite !andb_true_iff, !N.ltb_lt in Z. apply Z.
  - match goal with B : byte_string ?b, H : is_scoring _ ?b |- _ => pose proof (scoring_fits _ _ B H) as Z end.
    cbn [args_ok] in Z. rewrite !andb_true_iff, !N.ltb_lt in Z. apply Z.
Qed.
Lemma callable_iff ok ep : (forall b, ep = ClaimFees b -> b = ok) ->
  expressible ep <-> exists f args, Forall byte_string args /\ means ok f args ep.
Proof.
  intros Hc. split.
  - intros H. destruct (callable ok ep H Hc) as (args & H1 & H2). by exists (text (name ep)), args.
  - intros (f & args & H1 & H2). by eapply means_fits.
Qed.

(** ** Answers throughout *)
Lemma keeps_up_shows os : forall s w n, keeps_up s w os -> exists ms s', each do_call ms s = Some s' /\ reads s' (run w (take n os)).
Proof.
  induction os as [|o os IH]; intros s w n Hk.
  - exists [], s. split; [done|]. destruct n; apply Hk.
  - destruct Hk as (Hr & ms & s1 & H1 & Hk). destruct n as [|n]; [by exists [], s|].
    destruct (IH s1 _ n Hk) as (ms' & s' & H2 & H3). exists (ms ++ ms'), s'. split; [|exact H3].
    clear -H1 H2. revert s H1. induction ms as [|m ms IHm]; intros s H1; cbn [each app] in *; [by injection H1 as ->|].
    destruct (do_call m s); [by apply IHm|done].
Qed.
Lemma each_app' {A} (f : A -> store -> option store) ms ms' : forall s s1, each f ms s = Some s1 -> each f (ms ++ ms') s = each f ms' s1.
Proof.
  induction ms as [|m ms IHm]; intros s s1 H1; cbn [each app] in *; [by injection H1 as ->|].
  destruct (f m s); [by apply IHm|done].
Qed.
Lemma bytes_views owner epoch args w xs os n : Forall byte_string args -> deploy_bytes owner epoch args = Ok w ->
  Forall proper xs -> Forall2 stands_for xs os ->
  tally receives w os < 2 ^ 256 -> tally names_managers w os < 2 ^ 32 -> N.of_nat (List.length xs) < 2 ^ 64 ->
  tally insertions w os < 2 ^ 32 ->
  exists ms s, each do_call ms (fun _ => []) = Some s /\ shows s (act_run w (take n xs)).
Proof.
  intros Hb Hd Hp Hs H1 H2 H3 H4. destruct (bytes_storage _ _ _ _ _ _ Hb Hd Hp Hs H1 H2 H3 H4) as (ms & s & E & Hk).
  destruct (keeps_up_shows os s w n Hk) as (ms' & s' & E' & Hr). exists (ms ++ ms'), s'. split.
  - rewrite (each_app' _ _ _ _ _ E). exact E'.
  - apply views_show. rewrite (stands_run (take n xs) (take n os)); [exact Hr|]. by apply list.Forall2_take.
Qed.

(** ** A test *)
Definition change_test (who : addr) (p : pool) (epoch : N) : bool :=
  (who <? 2 ^ 256) && (epoch <? 2 ^ 64)
  && forallb (fun k => N.of_nat (width k) <? 2 ^ 32) [supply p; reserve p; fees_res p; withdrawn p; pend p; pfu p; pfb p].
Definition event_test (x : eff) : bool :=
  match x with
  | EvAdd _ who p epoch | EvRemove _ who p epoch | EvClaim _ who p epoch | EvGeneral who p epoch => change_test who p epoch
  | EvWithdrawPending _ d who p epoch => (d <? 2 ^ 256) && change_test who p epoch
  | EvRevenue _ epoch => epoch <? 2 ^ 64
  | _ => true
  end.
Fixpoint events_test (w : world) (os : list op) : bool :=
  match os with
  | [] => true
  | o :: r => let w' := fst (step w o) in forallb event_test (w_log w') && events_test w' r
  end.
Lemma change_by_test who p epoch : change_test who p epoch = true -> fits_change who p epoch.
Proof.
  unfold change_test. rewrite !andb_true_iff, !N.ltb_lt, forallb_forall. intros [[H1 H2] H3]. split; [done|]. split; [done|].
  apply List.Forall_forall. intros k Hk. by apply N.ltb_lt, H3.
Qed.
Lemma event_by_test x : event_test x = true -> fits_event x.
Proof.
  destruct x; cbn [event_test fits_event]; try done; try apply change_by_test.
  - rewrite andb_true_iff, N.ltb_lt. intros [H1 H2]. split; [done|]. by apply change_by_test.
  - apply N.ltb_lt.
Qed.
Lemma events_by_test os : forall w, events_test w os = true -> events_fit w os.
Proof.
  induction os as [|o os IH]; intros w H; [done|]. cbn [events_test events_fit] in *. apply andb_true_iff in H as [H1 H2].
  split; [|by apply IH]. rewrite forallb_forall in H1. apply List.Forall_forall. intros x Hx. by apply event_by_test, H1.
Qed.
