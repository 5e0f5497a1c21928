(** Selection.v — choice of providers and split of a batch, LS/selection.rs.
    The provider records are read through [pv : gmap addr prov]; an absent
    record makes SingleValueMapper::get abort ([EDecode]). *)
From Verif Require Export Score.

(** delegation_contract_data(..).get(), LS/storage/mod.rs:16-21 *)
Definition get_prov (pv : gmap addr prov) (c : addr) : res prov :=
  match pv !! c with Some p => Ok p | None => Er EDecode end.

(** calculate_max_providers, LS/selection.rs:413-434. [amount / min] of the two
    18-decimals ManagedDecimal values, truncated, is the integer quotient. *)
Definition calc_max_providers (amount maxsel len : N) : res N :=
  let* q := div amount MIN_EGLD in
  to_usize (N.min (N.min q maxsel) len).

(** is_delegation_provider_eligible, LS/selection.rs:179-195 *)
Definition prov_eligible (p : prov) : res bool :=
  if negb (p_elig p) then Ok false
  else if p_cap p =? 0 then Ok true
  else let* a := avail p in
       let* d := sub (p_cap p) a in
       Ok (MIN_EGLD <=? d).

(** create_selection_info, LS/selection.rs:393-411 *)
Definition mk_info (c : addr) (p : prov) : res sinfo :=
  let* space := if p_cap p =? 0 then Ok None
                else let* d := sub (p_cap p) (p_total p) in Ok (Some d) in
  let* a := avail p in
  Ok (Sinfo c 0 (p_total p) (p_apy p) (p_nodes p) a space).

(** loop of select_delegation_providers, LS/selection.rs:81-92; [n] = number of
    providers selected so far. *)
Fixpoint sel_deleg_loop (l : list addr) (pv : gmap addr prov) (maxp n : N)
  : res (list sinfo * N) :=
  match l with
  | [] => Ok ([], 0)
  | c :: r =>
      let* p := get_prov pv c in
      let* e := prov_eligible p in
      if e then
        let* a := avail p in
        let* i := mk_info c p in
        if n + 1 =? maxp then Ok ([i], a)
        else let* '(is, t) := sel_deleg_loop r pv maxp (n + 1) in
             Ok (i :: is, a + t)
      else
        if n =? maxp then Ok ([], 0)
        else sel_deleg_loop r pv maxp n
  end.

(** select_delegation_providers, LS/selection.rs:67-95 *)
Definition select_deleg (l : list addr) (pv : gmap addr prov) (amount maxsel : N)
  : res (list sinfo * N) :=
  let* maxp := calc_max_providers amount maxsel (N.of_nat (length l)) in
  sel_deleg_loop l pv maxp 0.

(** amount_to_take, LS/selection.rs:156-162 *)
Definition amount_to_take (staked average : N) : res N :=
  if average <=? staked then Ok average
  else if MIN_EGLD * 2 <? staked then sub staked MIN_EGLD
  else Ok staked.

(** loop of select_undelegation_providers, LS/selection.rs:141-174 *)
Fixpoint sel_undel_loop (l : list addr) (pv : gmap addr prov)
    (hard maxp average remaining n : N) : res (list sinfo * N) :=
  match l with
  | [] => Ok ([], 0)
  | c :: r =>
      let* h := to_usize hard in
      if h <=? n then Ok ([], 0)
      else if (maxp <=? n) && (remaining =? 0) then Ok ([], 0)
      else
        let* p := get_prov pv c in
        let* staked := avail p in
        let* take := amount_to_take staked average in
        if 0 <? take then
          let* i := mk_info c p in
          let* rem' := if take <? remaining then sub remaining take else Ok 0 in
          let* '(is, t) := sel_undel_loop r pv hard maxp average rem' (n + 1) in
          Ok (i :: is, staked + t)
        else sel_undel_loop r pv hard maxp average remaining n
  end.

(** select_undelegation_providers, LS/selection.rs:121-177 *)
Definition select_undel (l : list addr) (pv : gmap addr prov) (amount maxsel : N)
  : res (list sinfo * N) :=
  let* maxp := calc_max_providers amount maxsel (N.of_nat (length l)) in
  let* per_all := div amount maxsel in
  let* per_max := div amount maxp in
  let* average := div (per_max + per_all) 2 in
  sel_undel_loop l pv maxsel maxp average amount 0.

(** calculate_provider_amount, LS/selection.rs:258-313 *)
Definition provider_amount (i : sinfo) (total_amount remaining total_score : N)
    (is_delegate : bool) : res N :=
  let* proportion :=
    if 0 <? total_score then div (i_score i * total_amount) total_score
    else Ok remaining in
  if is_delegate then
    match i_space i with
    | Some s => Ok (N.min (N.min proportion s) remaining)
    | None => Ok (N.min proportion remaining)
    end
  else
    let available := i_avail i in
    let can_take := N.max (N.min (N.min proportion available) remaining) MIN_EGLD in
    let* lft := sub available can_take in
    if lft <? MIN_EGLD then
      if available <=? remaining then Ok available
      else let* d := sub available remaining in
           if d <? MIN_EGLD then Ok 0 else Ok remaining
    else Ok (N.min can_take remaining).

(** distribution loop, LS/selection.rs:219-246: selections and what remains *)
Fixpoint distribute_loop (l : list sinfo) (amount remaining total_score : N)
    (is_delegate : bool) : res (list dsel * N) :=
  match l with
  | [] => Ok ([], remaining)
  | i :: r =>
      let* a := provider_amount i amount remaining total_score is_delegate in
      if MIN_EGLD <=? a then
        let* rem' := sub remaining a in
        let* space :=
          if is_delegate then
            match i_space i with
            | Some s => let* s' := sub s a in Ok (Some s')
            | None => Ok None
            end
          else let* s' := sub (i_avail i) a in Ok (Some s') in
        let* '(ds, rem'') := distribute_loop r amount rem' total_score is_delegate in
        Ok (Dsel (i_addr i) a space :: ds, rem'')
      else distribute_loop r amount remaining total_score is_delegate
  end.

(** update_provider_amount, LS/selection.rs:375-391 *)
Definition add_amount (d : dsel) (extra : N) : dsel :=
  Dsel (d_addr d) (d_amt d + extra) (d_space d).

(** loop of handle_remaining_amount, LS/selection.rs:326-361 (entered with a
    positive remaining amount; the [break] at 358-360 is the [remaining =? 0]
    test at the head of the next iteration) *)
Fixpoint remaining_loop (l : list dsel) (remaining : N) (is_delegate : bool)
  : res (list dsel * N) :=
  match l with
  | [] => Ok ([], remaining)
  | d :: r =>
      if remaining =? 0 then Ok (l, 0)
      else
        let* '(d', rem') :=
          if negb is_delegate then
            let* space := unwrap (d_space d) in
            let can_use := N.min space remaining in
            let* lft := sub space can_use in
            if (0 <? can_use) && ((MIN_EGLD <=? lft) || (space =? can_use)) then
              let* rem1 := sub remaining can_use in
              Ok (add_amount d can_use, rem1)
            else Ok (d, remaining)
          else
            match d_space d with
            | None => Ok (add_amount d remaining, 0)
            | Some space =>
                let can_use := N.min space remaining in
                if 0 <? can_use then
                  let* rem1 := sub remaining can_use in
                  Ok (add_amount d can_use, rem1)
                else Ok (d, remaining)
            end in
        let* '(r', rem'') := remaining_loop r rem' is_delegate in
        Ok (d' :: r', rem'')
  end.

(** distribute_amount, LS/selection.rs:197-256, together with
    handle_remaining_amount, LS/selection.rs:315-373: returns the selections
    and the amount that is put back in the queue (366-372). *)
Definition distribute_amount (l : list sinfo) (amount : N) (is_delegate : bool)
    (total_stake : N) (c : scfg) : res (list dsel * N) :=
  let* '(l', total_score) := score_all l is_delegate total_stake c in
  let* '(ds, rem) := distribute_loop l' amount amount total_score is_delegate in
  if rem =? 0 then Ok (ds, 0) else remaining_loop ds rem is_delegate.

(** get_scoring_config, LS/selection.rs:14-19 *)
Definition get_scoring_config (g : cfg) : res scfg :=
  match c_score g with Some c => Ok c | None => Er EScoringConfigNotSet end.

(** get_delegation_contract, LS/selection.rs:21-41, with handle_delegation
    (43-65) and handle_undelegation (97-119): returns the selections and the
    cache after handle_remaining_amount added the undistributed part to
    pending_egld / pending_egld_for_unstake (366-372). *)
Definition get_delegation_contract (amount : N) (is_delegate : bool)
    (dl ul : list addr) (pv : gmap addr prov) (g : cfg) (c : pool)
  : res (list dsel * pool) :=
  let l := if is_delegate then dl else ul in
  let* _ := require (negb (N.of_nat (length l) =? 0)) ENoDelegationContracts in
  let* '(sel, total) := if is_delegate then select_deleg l pv amount (c_maxsel g)
                        else select_undel l pv amount (c_maxsel g) in
  let* _ := require (negb (N.of_nat (length sel) =? 0)) EBadDelegationAddress in
  let* sc := get_scoring_config g in
  let* '(ds, rem) := distribute_amount sel amount is_delegate total sc in
  Ok (ds, if is_delegate then set_pend (pend c + rem) c else set_pfu (pfu c + rem) c).
