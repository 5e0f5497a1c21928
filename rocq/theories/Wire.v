(** Wire.v — the calls the contract makes as they are sent: the proxies
    LS/proxy/proxy_delegation.rs and LS/proxy/proxy_delegation_manager.rs, the promises
    registered with them (LS/manage.rs:83-98,160-174,198-205,232-239, LS/delegation.rs:81-96),
    the functions of the mocks, and the callbacks of LS/callback.rs as they are entered. *)
From Coq Require Import String.
From Verif Require Export Abi Mnet.
Open Scope N_scope.

(** ** What is sent *)
(** Destination, EGLD, function and arguments; the callback and its closure. *)
Record msg := Msg {
  g_to : addr; g_value : N; g_fun : bytes; g_args : list bytes; g_cb : bytes; g_closure : bytes
}.
(** The closure: each argument of the callback in front of the call result, written on its
    own, with its length (framework, CallbackClosure); LS/callback.rs:15-20,44-49,72-73,90,111-117 *)
Definition closure (l : list bytes) : bytes := List.concat (map nest_buf l).

(** The message of a call. None: the issue of a token is written by the framework
    (LS/config.rs:20-26,39-46). *)
Definition message (k : call) : option msg :=
  match k with
  | KDeleg c a =>      (* LS/manage.rs:86-97, LS/proxy/proxy_delegation.rs:73-79 *)
      Some (Msg c a (text "delegate") [] (text "add_liquidity_callback") (closure [top_addr c; top_num a]))
  | KUndel c a =>      (* LS/manage.rs:163-173, LS/proxy/proxy_delegation.rs:81-92 *)
      Some (Msg c 0 (text "unDelegate") [top_num a] (text "remove_liquidity_callback") (closure [top_addr c; top_num a]))
  | KWithd c =>        (* LS/manage.rs:198-205, LS/proxy/proxy_delegation.rs:94-101 *)
      Some (Msg c 0 (text "withdraw") [] (text "withdraw_tokens_callback") (closure [top_addr c]))
  | KClaim l =>        (* LS/manage.rs:224-239, LS/proxy/proxy_delegation_manager.rs:64-76 *)
      Some (Msg DELEGATION_MANAGER 0 (text "claimMulti") (map top_addr l) (text "claim_rewards_callback") (closure []))
  | KWhite c a who =>  (* LS/delegation.rs:82-96, LS/proxy/proxy_delegation.rs:73-79 *)
      Some (Msg c a (text "delegate") [] (text "whitelist_delegation_contract_callback")
              (closure [top_addr c; top_num a; top_addr who]))
  | KIssue _ _ _ => None
  end%string.

(** ** At the destination *)
(** A function that takes no EGLD, delegation-mock/src/delegation.rs:35,51,71 *)
Definition unpaid {A : Type} (value : N) (x : option A) : option A := if value =? 0 then x else None.
(** The functions of the delegation mock, delegation-mock/src/delegation.rs:25-93, by name:
    the mock after and the EGLD sent back. depositEGLD is for the owner of the mock only,
    delegation-mock/src/delegation.rs:16-18. *)
Definition mock_functions (epoch value : N) : list (string * (list bytes -> option (mock -> res (mock * N)))) :=
  [("delegate", no_more (fun m => Ok (mock_delegate value m, 0)));                         (* :25-27 *)
   ("unDelegate", fun l => unpaid value
      (arg arg_big (fun a => no_more (fun m => let* m' := mock_undelegate epoch a m in Ok (m', 0))) l)); (* :35-36 *)
   ("withdraw", fun l => unpaid value (no_more (mock_withdraw epoch) l));                  (* :51-52 *)
   ("claimRewards", fun l => unpaid value (no_more (mock_claim epoch) l))]%string.         (* :71-72 *)
(** The manager mock has one function, delegation-manager-mock/src/delegation_manager.rs:10-11 *)
Definition manager_functions (epoch value : N)
  : list (string * (list bytes -> option (gmap addr mock -> N -> res (gmap addr mock * N * N * N)))) :=
  [("claimMulti", fun l => unpaid value (any_number get_addr (claim_multiple epoch) l))]%string.
(** The function of that name, delegation-mock/wasm/src/lib.rs:20-33,
    delegation-manager-mock/wasm/src/lib.rs:20-26 *)
Definition named {A : Type} (f : bytes) (l : list (string * A)) : option A :=
  option_map snd (List.find (fun x => bool_decide (text (fst x) = f)) l).

(** A message arrives: value sent back (None: it failed), mocks and manager after. The
    manager is at the address of LS/constants/mod.rs:15-16; any other address is that of a
    mock, or nothing is there; delegation-mock/src/delegation.rs:25-93,
    delegation-manager-mock/src/delegation_manager.rs:10-27 *)
Definition arrives (epoch : N) (g : msg) (ms : gmap addr mock) (mgr : N) : option N * gmap addr mock * N :=
  let failed := (None, ms, mgr) in
  if g_to g =? DELEGATION_MANAGER then
    match named (g_fun g) (manager_functions epoch (g_value g)) with
    | Some read =>
        match read (g_args g) with
        | Some run => match run ms mgr with Ok (ms', mgr', v, _) => (Some v, ms', mgr') | Er _ => failed end
        | None => failed
        end
    | None => failed
    end
  else
    match ms !! g_to g, named (g_fun g) (mock_functions epoch (g_value g)) with
    | Some m, Some read =>
        match read (g_args g) with
        | Some run => match run m with Ok (m', v) => (Some v, <[g_to g := m']> ms, mgr) | Er _ => failed end
        | None => failed
        end
    | _, _ => failed
    end.

(** ** The callback *)
(** The arguments in a closure, LS/callback.rs:15-20 *)
Fixpoint unpack_ (fuel : nat) (l : bytes) : option (list bytes) :=
  match l, fuel with
  | [], _ => Some []
  | _, O => None
  | _, S n =>
      match read_be 4 l with
      | Some (k, r) =>
          match read_bytes (N.to_nat k) r with
          | Some (b, r') => option_map (cons b) (unpack_ n r')
          | None => None
          end
      | None => None
      end
  end.
Definition unpack (l : bytes) : option (list bytes) := unpack_ (List.length l) l.

(** ManagedAsyncCallResult: a code of 4 bytes; 0 means success and the values follow, with
    another code at most a message; LS/callback.rs:20,49,90,117 *)
Definition call_result {A : Type} (values : list bytes -> option A) (l : list bytes) : option (option A) :=
  match l with
  | [] => None
  | code :: r =>
      match arg_int 4 code with
      | Some 0 => option_map Some (values r)
      | Some _ => match r with [] | [_] => Some None | _ => None end
      | None => None
      end
  end.
(** a result without values, LS/callback.rs:20 *)
Definition no_values (l : list bytes) : option bool :=
  option_map (fun x : option unit => match x with Some _ => true | None => false end) (call_result (no_more tt) l).
(** a result with one number, LS/callback.rs:90 *)
Definition one_number (l : list bytes) : option reply :=
  option_map (fun x : option N => match x with Some v => RDone v | None => RFail end)
    (call_result (arg arg_big (fun a => no_more a)) l).
(** A callback goes on with what it has read, or aborts, LS/callback.rs:15-140 *)
Definition with_result {A : Type} (x : option A) (f : A -> world -> res world) (w : world) : res world :=
  match x with Some a => f a w | None => Er EDecode end.

(** The promise callbacks by name: the arguments of the closure; then, when the reply comes,
    the values reported and the EGLD that comes with it (call_value); LS/callback.rs *)
Definition promise_callbacks : list (string * (list bytes -> option (list bytes -> N -> world -> res world))) :=
  [("remove_liquidity_callback", arg get_addr (fun c => arg arg_big (fun a => no_more (fun rs _ =>
      with_result (no_values rs) (remove_liquidity_callback c a)))));                      (* LS/callback.rs:15-21 *)
   ("add_liquidity_callback", arg get_addr (fun c => arg arg_big (fun a => no_more (fun rs _ =>
      with_result (no_values rs) (add_liquidity_callback c a)))));                         (* LS/callback.rs:44-50 *)
   ("withdraw_tokens_callback", arg get_addr (fun c => no_more (fun _ v =>
      withdraw_tokens_callback c v)));                                                     (* LS/callback.rs:72-74 *)
   ("claim_rewards_callback", no_more (fun rs _ =>
      with_result (one_number rs) claim_rewards_callback));                                (* LS/callback.rs:89-90 *)
   ("whitelist_delegation_contract_callback", arg get_addr (fun c => arg arg_big (fun a => arg get_addr (fun who =>
      no_more (fun rs _ => with_result (no_values rs) (whitelist_callback c a who))))))    (* LS/callback.rs:110-118 *)
  ]%string.
(** The callback [f] is entered with its closure, LS/callback.rs:15-140 *)
Definition promise (f c : bytes) (rs : list bytes) (v : N) (w : world) : res world :=
  match unpack c, named f promise_callbacks with
  | Some args, Some read => match read args with Some cb => cb rs v w | None => Er EDecode end
  | _, _ => Er EDecode
  end.

(** The reply to a message: the code and the values, and the EGLD that comes with it: what
    was sent if the call failed; delegation-mock/src/delegation.rs:25-69,
    delegation-manager-mock/src/delegation_manager.rs:11,25-26. [code] is what the platform
    reports for a failure. *)
Definition report_of (g : msg) (r : reply) (code : N) : list bytes :=
  match r with
  | RDone v => [0] :: if bool_decide (g_fun g = text "claimMulti"%string) then [top_num v] else []
  | RFail => [top_num code]
  end.
Definition brings (g : msg) (r : reply) : N := match r with RDone v => v | RFail => g_value g end.

(** ** The network in bytes *)
(** One step in which a call is executed from its message and a callback is entered from
    the bytes of its promise; everything else as in Mnet.v. Sources as above. *)
Definition wstep (code : N) (n : net) (x : nact) : net * status :=
  let w := n_w n in
  match x with
  | NExec i b =>
      match option_map message (nth_error (w_calls w) i) with
      | Some (Some g) =>
          let '(out, ms, mgr) := arrives (w_epoch w) g (n_mocks n) (n_mgr n) in
          let '(w', s) := step w (OExec i out) in (Net w' ms mgr, s)
      | _ => nstep n x
      end
  | NDo (OCb i) =>
      match nth_error (w_res w) i with
      | Some (k, r) =>
          match message k with
          | Some g =>
              let w1 := set_egld (w_egld w + brings g r) (set_res (drop_nth i (w_res w)) (set_log [] w)) in
              match promise (g_cb g) (g_closure g) (report_of g r code) (brings g r) w1 with
              | Ok w2 => (Net w2 (n_mocks n) (n_mgr n), SOk)
              | Er e => (Net w1 (n_mocks n) (n_mgr n), SCbFail e)
              end
          | None => nstep n x
          end
      | None => nstep n x
      end
  | _ => nstep n x
  end.
Fixpoint wrun (code : N) (n : net) (xs : list nact) : net :=
  match xs with [] => n | x :: r => wrun code (fst (wstep code n x)) r end.
Fixpoint wstatuses (code : N) (n : net) (xs : list nact) : list status :=
  match xs with [] => [] | x :: r => snd (wstep code n x) :: wstatuses code (fst (wstep code n x)) r end.
