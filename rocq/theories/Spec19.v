(** Spec19.v — vocabulary of property C124: what the commands of the operators' script are
    meant to do, and histories of them. *)
From Coq Require Import String.
From Verif Require Export Script Spec14.
Open Scope N_scope.

(** What each command is meant to ask for, by its name and arguments. *)
Definition serves (v : settings) (c : command) : endpoint :=
  match c with
  | CRegisterLsToken => RegisterLsToken | CRegisterUnstakeToken => RegisterUnstakeToken
  | CSetStateActive => SetStateActive
  | CWhitelist => Whitelist (v_provider v) (v_admin v) (v_total v) (v_cap v) (v_nodes v) (v_apy v)
  | CChangeParams => ChangeParams (v_provider v) (v_total v) (v_cap v) (v_nodes v) (v_apy v) true
  | CDelegate => Delegate | CUnDelegate => UnDelegate
  | CDelegatePending => DelegatePending None | CUnDelegatePending => UnDelegatePending None
  | CSetMinimumRounds => SetMinimumRounds 200
  | CUpdateMaxDelegationAddresses => SetMaxAddresses 100
  | CUpdateMaxSelectedProviders => SetMaxSelected (v_max_selected v)
  | CSetUnbondPeriod => SetUnbondPeriod (v_unbond v)
  | CSetManagers => AddManagers [v_manager1 v; v_manager2 v; v_manager3 v]
  | CAddMigrationScAddress => SetMigrationSc (v_migration v)
  end.
(** The commands that name a function the contract does not have. *)
Definition misnamed (c : command) : Prop :=
  match c with
  | CUpdateMaxDelegationAddresses | CUpdateMaxSelectedProviders | CSetManagers | CAddMigrationScAddress => True
  | _ => False
  end.
(** The variables hold addresses of 32 bytes and numbers of the types of the parameters. *)
Definition settings_fit (v : settings) : Prop :=
  Forall (fun a => a < 2 ^ 256)
    [v_accumulator v; v_migration v; v_provider v; v_admin v; v_manager1 v; v_manager2 v; v_manager3 v]
  /\ Forall (fun k => k < 2 ^ 64) [v_rounds v; v_min_rounds v; v_unbond v; v_nodes v; v_apy v]
  /\ v_max_addresses v < 2 ^ 32.

(** The questions that name a view the contract does not have. *)
Definition misnamed_question (q : question) : Prop :=
  match q with AskRoundsToChangeEpoch | AskBlockRoundCount | AskCanExecutePendingTasks => True | _ => False end.
(** What the others ask for. *)
Definition true_answer (q : question) (w : world) : option (list bytes) :=
  match q with
  | AskExchangeRate => sent (view_exchange_rate w)
  | AskEgldPositionValue => sent (view_egld_value 1000000000000000000 w)
  | AskLsValueForPosition => sent (view_ls_value 892262748273425358 w)
  | _ => None
  end.

(** A history in which all transactions are commands of the script, with any variables and
    by anybody; calls are answered and the other things outside happen in any way. *)
Inductive doing :=
| DCommand (v : settings) (c : command) (caller : addr) (ok : bool)
| DOther (o : op).
Definition doing_ok (d : doing) : Prop := match d with DCommand v _ _ _ => settings_fit v | DOther o => other o end.
Definition doing_step (w : world) (d : doing) : world * status :=
  match d with DCommand v c caller ok => script_step v c caller ok w | DOther o => step w o end.
Fixpoint doing_run (w : world) (ds : list doing) : world :=
  match ds with [] => w | d :: r => doing_run (fst (doing_step w d)) r end.
Fixpoint doing_statuses (w : world) (ds : list doing) : list status :=
  match ds with [] => [] | d :: r => snd (doing_step w d) :: doing_statuses (fst (doing_step w d)) r end.

(** The way to the first deposit with the script: both tokens, each issued by the system
    contract and called back, then the activation. *)
Definition script_start (v : settings) (owner : addr) (ok : bool) : list doing :=
  [DCommand v CRegisterLsToken owner ok; DOther (OExec 0 (Some 0)); DOther (OCb 0);
   DCommand v CRegisterUnstakeToken owner ok; DOther (OExec 0 (Some 0)); DOther (OCb 0);
   DCommand v CSetStateActive owner ok].
