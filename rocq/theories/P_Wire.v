(** P_Wire.v — property C122: outgoing calls and their promises as bytes. *)
From Coq Require Import String.
From Verif Require Import Scenario L_Wire P_Mnet.
Open Scope N_scope.

Ltac each_of := repeat (apply list.Forall_cons_2; [vm_compute; repeat split; try reflexivity; try discriminate|]); apply list.Forall_nil_2.

(** C122. Along every history in which addresses have 32 bytes and less than 2^256 EGLD comes
    in, every call that is under way can be written as a message: its addresses and its amount
    fit. *)
Theorem C122_sendable : forall w os,
  Deployed w -> c_acc (w_cfg w) < 2 ^ 256 -> Forall typed os -> Forall from_account os ->
  tally receives w os < 2 ^ 256 -> Forall sendable (unanswered (run w os)).
Proof. exact all_sendable. Qed.
Print Assumptions C122_sendable.

Definition sent_ops : list op := (setup_ops ++ deposit_ops ++ [OTx 100 0 [] (DelegatePending None); OExec 1 None])%list.
Example C122_sendable_case :
  (Deployed w0 /\ Forall typed sent_ops /\ Forall from_account sent_ops)
  /\ c_acc (w_cfg w0) < 2 ^ 256 /\ tally receives w0 sent_ops = 102 * E + 10
  /\ unanswered (run w0 sent_ops) = [KDeleg 1000 24038217711350872307; KDeleg 1001 75961782288649127693].
Proof. split; [split; [exact w0_is_deployed|]; split; each_of|]. computed. Qed.

(** C122. Whatever reply is reported to a promise, the callback that is entered from the name
    and the closure of the message does what the model's callback does: the closure is read
    back as it was written, and the result as success or failure. *)
Theorem C122_callbacks : forall k r g rs w,
  sendable k -> message k = Some g -> reported_as k r rs ->
  promise (g_cb g) (g_closure g) rs (attached k r) w = callback k r w.
Proof. exact callbacks_read. Qed.
Print Assumptions C122_callbacks.

(** Case: a delegation of 5 EGLD to 1000 that the provider accepted, and one it refused with
    code 4 and a message. *)
Definition m_deleg : msg :=
  Msg 1000 (5 * E) (text "delegate") [] (text "add_liquidity_callback")
    ([0; 0; 0; 32] ++ repeat 0 30 ++ [3; 232] ++ [0; 0; 0; 8; 69; 99; 145; 130; 68; 244; 0; 0]).
Example C122_callbacks_case :
  sendable (KDeleg 1000 (5 * E)) /\ message (KDeleg 1000 (5 * E)) = Some m_deleg
  /\ reported_as (KDeleg 1000 (5 * E)) (RDone 0) [[0]]
  /\ reported_as (KDeleg 1000 (5 * E)) RFail [[4]; text "delegation cap reached"].
Proof.
  split; [vm_compute; split; reflexivity|]. split; [vm_compute; reflexivity|]. split; [exists [0]; split; [done|]; split; vm_compute; reflexivity|].
  exists 4, [4], (text "delegation cap reached"). split; [split; vm_compute; reflexivity|]. split; [done|by right].
Qed.

(** C122. The mocks read each message as the call that was meant, with the EGLD that was
    attached, if there is no mock at the address of the manager. *)
Theorem C122_received : forall epoch b k g ms mgr,
  sendable k -> message k = Some g -> ms !! DELEGATION_MANAGER = None ->
  arrives epoch g ms mgr = at_destination epoch b k ms mgr.
Proof. exact received. Qed.
Print Assumptions C122_received.

(** Case: both messages under way in the network of P_Mnet.v; the second is executed. *)
Example C122_received_case :
  w_calls (n_w n_now) = [KUndel 1001 14831327494128579748] /\ n_mocks n_now !! DELEGATION_MANAGER = None
  /\ option_map (fun g => (g_to g, g_value g, g_fun g, map num (g_args g))) (message (KUndel 1001 14831327494128579748))
     = Some (1001, 0, text "unDelegate", [14831327494128579748])
  /\ option_map (fun g => fst (fst (arrives 8 g (n_mocks n_now) (n_mgr n_now)))) (message (KUndel 1001 14831327494128579748)) = Some (Some 0)
  /\ option_map (fun g => fst (fst (arrives 8 g ∅ (n_mgr n_now)))) (message (KUndel 1001 14831327494128579748)) = Some None.
Proof. computed. Qed.

(** C122. Two different calls never make the same message. *)
Theorem C122_one_call : forall k k' g,
  sendable k -> sendable k' -> message k = Some g -> message k' = Some g -> k = k'.
Proof. exact one_call. Qed.
Print Assumptions C122_one_call.

(** Case: a delegation and the deposit of a new provider differ in their promise alone, two
    deposits of different managers in their closure. *)
Example C122_one_call_case :
  sendable (KWhite 1000 E 100) /\ sendable (KWhite 1000 E 101) /\ sendable (KDeleg 1000 E)
  /\ option_map (fun g => (g_to g, g_value g, g_fun g, g_args g)) (message (KWhite 1000 E 100))
     = option_map (fun g => (g_to g, g_value g, g_fun g, g_args g)) (message (KDeleg 1000 E))
  /\ option_map g_cb (message (KWhite 1000 E 100)) = option_map g_cb (message (KWhite 1000 E 101)).
Proof. do 3 (split; [vm_compute; repeat split; reflexivity|]). computed. Qed.

(** C122. The network in which every call travels as bytes and every promise is entered from
    bytes takes the same course as the model's network, whatever code the platform reports for
    failed calls. *)
Theorem C122_history : forall n xs code,
  Start n -> c_acc (w_cfg (n_w n)) < 2 ^ 256 -> n_mocks n !! DELEGATION_MANAGER = None ->
  Forall nproper xs -> ntally nreceives n xs < 2 ^ 256 -> 0 < code < 2 ^ 32 ->
  wrun code n xs = nrun n xs /\ wstatuses code n xs = nstatuses n xs.
Proof. exact wire_history. Qed.
Print Assumptions C122_history.

Example C122_history_case :
  (Start n_start /\ Forall nproper n_all)
  /\ c_acc (w_cfg (n_w n_start)) < 2 ^ 256 /\ n_mocks n_start !! DELEGATION_MANAGER = None
  /\ ntally nreceives n_start n_all = 102223561643835616447
  /\ w_res (n_w (wrun 4 n_start n_all)) = [(KUndel 1000 25038217711350872307, RDone 0)].
Proof. split; [split; [exact n_start_Start|each_of]|]. computed. Qed.
