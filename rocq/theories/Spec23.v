(** Spec23.v — vocabulary of C128: the price of a share as an exact fraction, and what
    the gains of a history come to per share. Nothing here refers to the helpers of the
    contract model. *)
From Coq Require Export QArith.
From Verif Require Export Spec22.
Open Scope N_scope.

Definition q (n : N) : Q := inject_Z (Z.of_N n).
(** EGLD per LS token, without rounding. *)
Definition price (w : world) : Q := (q (virtual_reserve w) / q (ls_supply w))%Q.

(** What an action books, if it succeeds. *)
Definition booked (w : world) (o : op) : list booking := match snd (step w o) with SOk => means w o | _ => [] end.
(** The gains of a history, each divided by the shares there were at the time. *)
Fixpoint per_share (w : world) (os : list op) : Q :=
  match os with
  | [] => 0%Q
  | o :: r => ((match booked w o with [VGain g] => q g / q (ls_supply w) | _ => 0 end) + per_share (fst (step w o)) r)%Q
  end.
(** The most that rounding can leave to the holders: less than the price of one unit
    of a share with every deposit, less than one unit of EGLD with every redemption,
    divided by the shares there are afterwards. *)
Fixpoint dust (w : world) (os : list op) : Q :=
  match os with
  | [] => 0%Q
  | o :: r =>
      ((match booked w o with
        | [VIn _ _] => price w / q (ls_supply (fst (step w o)))
        | [VOut _ _] => 1 / q (ls_supply (fst (step w o)))
        | _ => 0
        end) + dust (fst (step w o)) r)%Q
  end.
(** Number of deposits and redemptions in a history. *)
Fixpoint trades (w : world) (os : list op) : N :=
  match os with
  | [] => 0
  | o :: r => (match booked w o with [VIn _ _] | [VOut _ _] => 1 | _ => 0 end) + trades (fst (step w o)) r
  end.
(** [u] deposits, redeems, gives or gets shares. *)
Definition party (u : addr) (b : booking) : Prop :=
  match b with VIn z _ | VOut z _ => z = u | VGain _ => False | VMove from to _ => from = u \/ to = u end.
