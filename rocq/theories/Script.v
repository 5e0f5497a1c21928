(** Script.v — the script of the operators, /repo/liquid-staking/interaction/
    devnet.snippets.sh (SN in the citations): which call each of its commands sends, with
    which payment and which bytes. The gateway, the ledger and the gas limits are left out;
    [upgrade] (SN:22-27) runs an empty function, [verifyContract] and [buildDocker]
    (SN:85-93) do not reach the contract. *)
From Coq Require Import String.
From Verif Require Export Abi.
Open Scope N_scope.

(** The variables of the script; those set inside a command are its own. SN:1-12,95-102,
    135 (the token), 205-207 (the managers) *)
Record settings := Settings {
  v_accumulator : addr; v_fees : N; v_rounds : N; v_min_rounds : N; v_max_selected : N; v_max_addresses : N;
  v_unbond : N; v_migration : addr; v_provider : addr; v_admin : addr; v_total : N; v_cap : N; v_nodes : N;
  v_apy : N; v_token : tok; v_manager1 : addr; v_manager2 : addr; v_manager3 : addr }.
(** Their values; addresses are written in bech32 there. Which token XEGLD-c67ed3 is depends
    on the contract: here it is its LS token. SN:5-12,97-102,135,205-207 *)
Definition devnet : settings :=
  Settings 0x50021938a8e89db95f9610e34953e099e510a323097eddf 400 2400 400 20 100 1
    0x500481e49a994ccbf553806a74e87a608056470f241eddf 0x100000000000000000000000000000000000009ffffff
    0x3568c9f3d0bdf38489ec7c4004ec8780e6dc5e8fc34dedfb510fab158beeeddf
    15032555858737269063515 28126500000000000000000 5 1800 TokLs
    0x4edbad2aeb1a16ff18cd3ef2f2cf2ee960fcf04c08a2e0bf1508bc749e281aca
    0x64cb03f255cf87a85b604ba81246e69ff8e8a56cd36f5f1175a958b636732b95
    0xc249d6e673ad8ae9b6fd7fe57fc1a3738b67c81d4801a56afc2897e2f06260bb.

(** mxpy writes a decimal number as the bytes of its hexadecimal digits, at least one byte;
    SN:15,76,82,109,119,142,170,180 *)
Definition mx_num (k : N) : bytes := if k =? 0 then [0] else top_num k.
(** a bech32 address: its 32 bytes, SN:15,109,119,213,223 *)
Definition mx_addr (a : addr) : bytes := top_addr a.

(** ** Deployment *)
(** deploy: the arguments, SN:15 *)
Definition script_init (v : settings) : list bytes :=
  [mx_addr (v_accumulator v); mx_num (v_fees v); mx_num (v_rounds v); mx_num (v_min_rounds v);
   mx_num (v_max_selected v); mx_num (v_max_addresses v); mx_num (v_unbond v)].

(** ** Commands *)
Inductive command :=
| CRegisterLsToken                 (* SN:29-34 *)
| CRegisterUnstakeToken            (* SN:36-41 *)
| CSetStateActive                  (* SN:43-47 *)
| CWhitelist                       (* SN:103-111 *)
| CChangeParams                    (* SN:113-121 *)
| CDelegate                        (* SN:123-131 *)
| CUnDelegate                      (* SN:133-144 *)
| CDelegatePending                 (* SN:146-153 *)
| CUnDelegatePending               (* SN:155-162 *)
| CSetMinimumRounds                (* SN:164-172 *)
| CUpdateMaxDelegationAddresses    (* SN:174-182 *)
| CUpdateMaxSelectedProviders      (* SN:184-192 *)
| CSetUnbondPeriod                 (* SN:194-202 *)
| CSetManagers                     (* SN:204-215 *)
| CAddMigrationScAddress.          (* SN:217-225 *)

(** EGLD sent along: 0 without --value; SN:31,38,128 *)
Definition script_value (c : command) : N :=
  match c with
  | CRegisterLsToken | CRegisterUnstakeToken => 50000000000000000
  | CDelegate => 100000000000000000000
  | _ => 0
  end.
(** tokens sent along: ESDTTransfer hands the call to the contract with the payment,
    SN:134-142 *)
Definition script_pays (v : settings) (c : command) : list pay :=
  match c with CUnDelegate => [Pay (v_token v) 300000000000000000] | _ => [] end.
(** function and arguments, lines as above *)
Definition script_call (v : settings) (c : command) : string * list bytes :=
  (match c with
   | CRegisterLsToken => ("registerLsToken", [text "XEGLD"; text "XEGLD"; [18]])
   | CRegisterUnstakeToken => ("registerUnstakeToken", [text "UEGLD"; text "UEGLD"; [18]])
   | CSetStateActive => ("setStateActive", [])
   | CWhitelist => ("whitelistDelegationContract",
       [mx_addr (v_provider v); mx_addr (v_admin v); mx_num (v_total v); mx_num (v_cap v); mx_num (v_nodes v); mx_num (v_apy v)])
   | CChangeParams => ("changeDelegationContractParams",
       [mx_addr (v_provider v); mx_num (v_total v); mx_num (v_cap v); mx_num (v_nodes v); mx_num (v_apy v); [1]])
   | CDelegate => ("delegate", [])
   | CUnDelegate => ("unDelegate", [])
   | CDelegatePending => ("delegatePending", [])
   | CUnDelegatePending => ("unDelegatePending", [])
   | CSetMinimumRounds => ("setMinimumRounds", [mx_num 200])
   | CUpdateMaxDelegationAddresses => ("updateMaxDelegationAddresses", [mx_num 100])
   | CUpdateMaxSelectedProviders => ("updateMaxSelectedProviders", [mx_num (v_max_selected v)])
   | CSetUnbondPeriod => ("setUnbondPeriod", [mx_num (v_unbond v)])
   | CSetManagers => ("setManagers", [mx_addr (v_manager1 v); mx_addr (v_manager2 v); mx_addr (v_manager3 v)])
   | CAddMigrationScAddress => ("addMigrationScAddress", [mx_addr (v_migration v)])
   end)%string.
(** [caller] runs a command (the ledger signs, SN:32); [ok] is the outcome of a deposit at
    the accumulator, which no command asks for *)
Definition script_step (v : settings) (c : command) (caller : addr) (ok : bool) (w : world) : world * status :=
  step_bytes w caller (script_value c) (script_pays v c) ok (text (fst (script_call v c))) (snd (script_call v c)).

(** ** Questions *)
Inductive question :=
| AskExchangeRate              (* SN:49-53 *)
| AskRoundsToChangeEpoch       (* SN:55-59 *)
| AskBlockRoundCount           (* SN:61-65 *)
| AskCanExecutePendingTasks    (* SN:67-71 *)
| AskEgldPositionValue         (* SN:73-77 *)
| AskLsValueForPosition.       (* SN:79-83 *)
(** function and arguments, lines as above *)
Definition script_query (q : question) (s : store) : option (list bytes) :=
  (match q with
   | AskExchangeRate => query (text "getExchangeRate") [] s
   | AskRoundsToChangeEpoch => query (text "getRoundsToChangeEpoch") [] s
   | AskBlockRoundCount => query (text "getBlockRoundCount") [] s
   | AskCanExecutePendingTasks => query (text "canExecutePendingTasks") [] s
   | AskEgldPositionValue => query (text "getEgldPositionValue") [mx_num 1000000000000000000] s
   | AskLsValueForPosition => query (text "getLsValueForPosition") [mx_num 892262748273425358] s
   end)%string.
