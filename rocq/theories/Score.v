(** Score.v — provider scoring, LS/score.rs. *)
From Verif Require Export Types.

(** norm_linear_clamp, LS/score.rs:129-149 *)
Definition norm_linear_clamp (value mn mx : N) (down : bool) : res N :=
  let* normalized :=
    if value <? mn then Ok 0
    else if mx <? value then Ok BPS
    else let* d1 := sub value mn in
         let* d2 := sub mx mn in
         div (d1 * BPS) d2 in
  if down then sub BPS normalized else Ok normalized.

(** [x.pow(k as u32)]: the u64 exponent is truncated to 32 bits,
    LS/score.rs:44,59,78,86 *)
Definition pow32 (x k : N) : N := x ^ (k mod U32).

(** Common tail of the category scores, LS/score.rs:44-47, 59-62, 78-81, 85-89 *)
Definition scaled (base k : N) (c : scfg) : N := pow32 base k * k_max_score c / BPS.

(** calculate_node_score, LS/score.rs:30-48 *)
Definition node_score (nodes : N) (is_delegate : bool) (c : scfg) : res N :=
  let* base := norm_linear_clamp nodes (k_min_nodes c) (k_max_nodes c) is_delegate in
  Ok (scaled base (k_exp c) c).

(** calculate_apy_score, LS/score.rs:50-63 *)
Definition apy_score (apy : N) (is_delegate : bool) (c : scfg) : res N :=
  let* base := norm_linear_clamp apy (k_min_apy c) (k_max_apy c) (negb is_delegate) in
  Ok (scaled base (k_apy_mul c) c).

(** calculate_stake_score, LS/score.rs:65-91 *)
Definition stake_score (staked total : N) (is_delegate : bool) (c : scfg) : res N :=
  if 0 <? total then
    let* base := norm_linear_clamp staked 0 total is_delegate in
    Ok (scaled base (k_exp c) c)
  else Ok (scaled (k_max_score c) (k_exp c) c).

(** combine_scores, LS/score.rs:93-107 *)
Definition combine_scores (n a s : N) (c : scfg) : N :=
  n * k_nodes_w c + a * k_apy_w c + s * k_stake_w c.

(** calculate_and_update_score, LS/score.rs:9-28 (the score; the update of the
    info record is in [score_all]) *)
Definition score_of (i : sinfo) (is_delegate : bool) (total : N) (c : scfg) : res N :=
  let* n := node_score (i_nodes i) is_delegate c in
  let* a := apy_score (i_apy i) is_delegate c in
  let* s := stake_score (i_avail i) total is_delegate c in
  Ok (combine_scores n a s c).

(** update_selected_addresses_scores, LS/score.rs:109-127: scored infos and total *)
Fixpoint score_all (l : list sinfo) (is_delegate : bool) (total : N) (c : scfg)
  : res (list sinfo * N) :=
  match l with
  | [] => Ok ([], 0)
  | i :: r =>
      let* s := score_of i is_delegate total c in
      let* '(r', t) := score_all r is_delegate total c in
      Ok (set_i_score s i :: r', s + t)
  end.
