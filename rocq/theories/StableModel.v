(** * StableModel: pallets/stableswap/src/lib.rs and helpers.rs (the StableSwap AMM).
    Line numbers refer to lib.rs unless "helpers.rs" is written.  [Pool] (types.rs:20-47) has the same fields as
    the constant-product pool, so the record [pool] of AmmModel is reused; [sort_assets] (548-566),
    [get_reserves] (1155-1169), [do_update_oracle] (1222-1268) and [calculate_reserves_to_remove] (715-736) are
    textually the functions of pallets/amm and the AmmModel definitions are reused for them.
    Not modelled: events, logging, and the unused functions [get_amount_out_1], [do_get_delta],
    [get_exchange_value], [do_get_alternative_var]. *)
From Verif Require Import Base MapSum Ledger AmmModel.

(** ** helpers.rs *)

(** [u128::try_from(x).unwrap_or(0)] inside helpers.rs:6-7 *)
Definition fit (x : Z) : Z := if in_u128 x then x else 0.
(** [div], helpers.rs:5-21: operands that do not fit in u128 count as 0, and so does a division by 0 *)
Definition ndiv (a b : Z) : Z := if fit b =? 0 then 0 else fit a / fit b.

(** the stopping rule of both loops, helpers.rs:73-81 and 132-140: [|new - old| <= 1] *)
Definition close (new old : Z) : bool := Z.abs (new - old) <=? 1.

(** one round of the loop of [compute_d], helpers.rs:53-71 *)
Definition d_round (x y ann sum d : Z) : res Z :=
  let dp := ndiv (d * d) (x * 2) in
  let dp := ndiv (dp * d) (y * 2) in
  let numerator := (ann * sum + dp * 2) * d in
  let denominator := ann * d + 3 * dp - d in
  let* _ := ensure (0 <=? denominator) "Underflow" in
  Ok (ndiv numerator denominator).
Fixpoint d_loop (n : nat) (x y ann sum d : Z) : res Z :=
  match n with
  | O => Err "could not compute d"
  | S m =>
      let* d' := d_round x y ann sum d in
      if close d' d then ok_or (chk d') "Overflow" else d_loop m x y ann sum d'
  end.
(** [compute_d], helpers.rs:33-85 *)
Definition compute_d (x y amp : Z) : res Z :=
  let sum := x + y in
  if sum =? 0 then Ok 0 else d_loop 255 x y (amp * 2 * 2) sum sum.

(** one round of the loop of [compute_base], helpers.rs:121-131 *)
Definition b_round (s ann d term1 y : Z) : res Z :=
  let term2 := 2 * y + s - d in
  let* _ := ensure (0 <=? term2) "Underflow" in
  Ok (ndiv (ann * y * y + term1) (ann * term2 + d)).
Fixpoint b_loop (n : nat) (s ann d term1 y : Z) : res Z :=
  match n with
  | O => Err "Error computing d"
  | S m =>
      let* y' := b_round s ann d term1 y in
      if close y' y then ok_or (chk y') "Overflow" else b_loop m s ann d term1 y'
  end.
(** [compute_base], helpers.rs:98-143 *)
Definition compute_base (new_quote amp d : Z) : res Z :=
  let dn := ndiv d 2 in
  let term1 := ndiv (dn * dn * d) new_quote in
  b_loop 255 new_quote (amp * 2 * 2) d term1 d.

(** [result.unwrap()]: an error becomes a panic *)
Definition unwrap_r {A} (r : res A) : res A := match r with Ok a => Ok a | _ => Panic end.
(** [Permill::checked_add] *)
Definition p_checked_add (a b : Z) : option Z := if a + b <=? PMILL then Some (a + b) else None.

(** [Config], 70-112 ([NumTokens] and [Precision] are only used by unused code) *)
Record ss_cfg := mkSsCfg {
  ss_acct : account;              (* account_id(), 1299-1301 *)
  ss_lock : account;              (* LockAccountId *)
  ss_receiver : account;          (* ProtocolFeeReceiver *)
  ss_lp_fee : Z;                  (* LpFee, Permill parts *)
  ss_pfee : Z;                    (* ProtocolFee, Permill parts *)
  ss_min_liq : Z;                 (* MinimumLiquidity *)
  ss_amp : Z;                     (* AmplificationCoefficient, u8 *)
  ss_origin : origin -> bool      (* CreatePoolOrigin *)
}.

(** Storage, 193-205, with the asset ledger *)
Record ss := mkSs {
  ss_pools : gmap (Z * Z) pool;   (* Pools: (base, quote) -> Pool *)
  ss_led : ledger
}.
Definition ss_set (s : ss) (k : Z * Z) (p : pool) (L : ledger) : ss := mkSs (<[k := p]> (ss_pools s)) L.

Section ss.
  Context (C : ss_cfg) (P : policy).

  (** [delta_util], 966-977 *)
  Definition delta (x y : Z) : res Z := compute_d x y (ss_amp C).

  (** [get_amount_out], 442-477 *)
  Definition ss_amount_out (amount_in pool_base pool_quote : Z) : res Z :=
    let* r := ok_or (p_checked_add (ss_lp_fee C) (ss_pfee C)) "Overflow" in
    let fees := p_mul_floor r amount_in in
    let* ain := ok_or (checked_sub amount_in fees) "Underflow" in
    let* d := delta pool_base pool_quote in
    let* new_quote := ok_or (checked_add pool_quote ain) "Overflow" in
    let* new_base := compute_base new_quote (ss_amp C) d in
    ok_or (checked_sub pool_base new_base) "Underflow".

  (** [get_amount_in], 1179-1220 *)
  Definition ss_amount_in (amount_out reserve_in reserve_out : Z) : res Z :=
    let* _ := ensure (amount_out <? reserve_out) "InsufficientSupplyOut" in
    let* numerator := ok_or (checked_mul reserve_in amount_out) "Overflow" in
    let* denominator := ok_or (checked_sub reserve_out amount_out) "Underflow" in
    let* ain := ok_or (checked_div numerator denominator) "Underflow" in
    let* r := ok_or (p_checked_add (ss_lp_fee C) (ss_pfee C)) "Underflow" in
    let* fee_percent := ok_or (p_checked_sub PMILL r) "Underflow" in
    let* x := p_recip_mul_floor fee_percent ain in
    ok_or (checked_add x 1) "Overflow".

  (** [get_amounts_out], 1304-1319 and the trait function 1336-1342; an empty path panics *)
  Fixpoint ss_amounts_out (ps : gmap (Z * Z) pool) (amount_in : Z) (path : list Z) : res (list Z) :=
    match path with
    | [] => Panic
    | a :: rest =>
        match rest with
        | [] => Ok [amount_in]
        | b :: _ =>
            let*' (ri, ro) := get_reserves ps a b in
            let* out := ss_amount_out amount_in ri ro in
            let* outs := ss_amounts_out ps out rest in
            Ok (amount_in :: outs)
        end
    end.

  (** [get_amounts_in], 424-440 and the trait function 1347-1353 *)
  Fixpoint ss_amounts_in (ps : gmap (Z * Z) pool) (amount_out : Z) (path : list Z) : res (list Z) :=
    match path with
    | [] => Panic
    | a :: rest =>
        match rest with
        | [] => Ok [amount_out]
        | b :: _ =>
            let* ins := ss_amounts_in ps amount_out rest in
            let*' (ri, ro) := get_reserves ps a b in
            let* i := ss_amount_in (hd 0 ins) ri ro in
            Ok (i :: ins)
        end
    end.

  (** [quote], 529-546 (u128 arithmetic, unlike pallets/amm) *)
  Definition ss_quote (base_amount base_pool quote_pool : Z) : res Z :=
    let* m := ok_or (checked_mul base_amount quote_pool) "Underflow" in
    ok_or (checked_div m base_pool) "Underflow".

  (** [get_ideal_amounts], 1271-1292 *)
  Definition ss_ideal (p : pool) (amts : Z * Z) : res (Z * Z) :=
    let '(base_amount, quote_amount) := amts in
    if pool_is_empty p then Ok (base_amount, quote_amount) else
    let* ideal_quote := ss_quote base_amount (p_base p) (p_quote p) in
    if ideal_quote <=? quote_amount then Ok (base_amount, ideal_quote)
    else let* ideal_base := ss_quote quote_amount (p_quote p) (p_base p) in
         Ok (ideal_base, quote_amount).

  (** [protocol_fee_on], 1293-1295 *)
  Definition ss_fee_on : bool := negb (ss_pfee C =? 0).

  (** [do_get_liquidity], 570-611; the first deposit also mints MinimumLiquidity to the lock account *)
  Definition ss_liquidity (L : ledger) (total : Z) (p : pool) (ideal : Z * Z) : res (Z * ledger) :=
    let '(ib, iq) := ideal in
    if total =? 0 then
      let* L1 := mint_into P L (p_lp p) (ss_lock C) (ss_min_liq C) in
      let r := Z.sqrt (ib * iq) - ss_min_liq C in
      let* _ := ensure (0 <=? r) "ConversionToU128Failed" in
      let* l := ok_or (chk r) "Underflow" in
      Ok (l, L1)
    else
      let* l0 := ok_or (checked_div (ib * total) (p_base p)) "ConversionToU128Failed" in
      let* l0 := ok_or (chk l0) "Underflow" in
      let* l1 := ok_or (checked_div (iq * total) (p_quote p)) "ConversionToU128Failed" in
      let* l1 := ok_or (chk l1) "Underflow" in
      Ok (Z.min l0 l1, L).

  (** [do_add_liquidity], 614-713; [L] is the current ledger, [ps] the stored pools *)
  Definition ss_do_add (ps : gmap (Z * Z) pool) (L : ledger) (who : account) (p : pool) (ideal assets : Z * Z)
    : res (pool * ledger) :=
    let '(ib, iq) := ideal in
    let '(ba, qa) := assets in
    let ex := bool_decide (is_Some (ps !! (ba, qa))) in
    let* d0 := (if ex then
                  let*' (tb, tq) := unwrap_r (get_reserves ps ba qa) in unwrap_r (delta tb tq)
                else Ok 0) in
    let total := iss L (p_lp p) in
    let*' (liq, L1) := unwrap_r (ss_liquidity L total p ideal) in
    let* nb := ok_or (checked_add (p_base p) ib) "Overflow" in
    let* nq := ok_or (checked_add (p_quote p) iq) "Overflow" in
    let p1 := set_reserves p nb nq in
    let* d1 := (if ex then
                  let* d1 := unwrap_r (delta nb nq) in
                  let* _ := ensure (d0 <=? d1) "InvalidInvariant" in
                  Ok d1
                else Ok 0) in
    let* liq := (if 0 <? total then
                   let* g := raw_sub d1 d0 in
                   let* m := raw_mul liq g in
                   let* q := unwrap (checked_div m d0) in
                   raw_add liq q
                 else raw_add liq d1) in
    let* L2 := mint_into P L1 (p_lp p) who liq in
    let* L3 := transfer P L2 ba who (ss_acct C) ib true in
    let* L4 := transfer P L3 qa who (ss_acct C) iq true in
    Ok (if ss_fee_on then set_last p1 nb nq else p1, L4).

  (** [do_remove_liquidity], 739-781 *)
  Definition ss_do_remove (L : ledger) (who : account) (p : pool) (liquidity : Z) (assets : Z * Z)
    : res (Z * Z * pool * ledger) :=
    let '(ba, qa) := assets in
    let*' (b, q) := calculate_reserves_to_remove L p liquidity in
    let* nb := ok_or (checked_sub (p_base p) b) "InsufficientLiquidity" in
    let* nq := ok_or (checked_sub (p_quote p) q) "InsufficientLiquidity" in
    let p1 := set_reserves p nb nq in
    let* L1 := burn_from P L (p_lp p) who liquidity in
    let* L2 := transfer P L1 ba (ss_acct C) who b false in
    let* L3 := transfer P L2 qa (ss_acct C) who q false in
    Ok (b, q, if ss_fee_on then set_last p1 nb nq else p1, L3).

  (** [get_protocol_fee_reciprocal_proportion], 1321-1327 *)
  Definition ss_fee_recip : res Z :=
    let* r := ok_or (p_checked_add (ss_pfee C) (ss_lp_fee C)) "Underflow" in
    p_recip_mul_floor (p_from_rational (ss_pfee C) r) 1.

  (** [do_mint_protocol_fee], 784-862 *)
  Definition ss_mint_fee (L : ledger) (p : pool) : res (Z * pool * ledger) :=
    let k_last := p_base_last p * p_quote_last p in
    if negb ss_fee_on then
      Ok (0, if negb (k_last =? 0) then set_last p 0 0 else p, L)
    else
    let* root_k_last := unwrap_r (delta (p_base_last p) (p_quote_last p)) in
    let* root_k := unwrap_r (delta (p_base p) (p_quote p)) in
    if root_k <=? root_k_last then Ok (0, p, L) else
    let total := iss L (p_lp p) in
    let numerator := (root_k - root_k_last) * total in
    let* recip := ss_fee_recip in
    let* scalar := ok_or (checked_sub recip 1) "Underflow" in
    let denominator := root_k * scalar + root_k_last in
    let* f := ok_or (checked_div numerator denominator) "Underflow" in
    let* fees := ok_or (chk f) "Overflow" in
    let* L1 := mint_into P L (p_lp p) (ss_receiver C) fees in
    Ok (fees, p, L1).

  (** [do_swap], 864-938 (trait function [swap], 1359-1366); [now] is the block number *)
  Definition ss_swap (now : Z) (s : ss) (who : account) (pr : Z * Z) (amount_in : Z) : res (Z * ss) :=
    let '(asset_in, asset_out) := pr in
    let*' (inv, ba, qa) := sort_assets (asset_in, asset_out) in
    let* p := ok_or (ss_pools s !! (ba, qa)) "PoolDoesNotExist" in
    let '(supply_in, supply_out) :=
      if (inv : bool) then (p_quote p, p_base p) else (p_base p, p_quote p) in
    let* min_in := p_recip_mul_floor (ss_lp_fee C) 1 in
    let* _ := ensure (min_in <=? amount_in) "InsufficientAmountIn" in
    let* _ := ensure (negb (supply_out =? 0)) "InsufficientAmountOut" in
    let* amount_out := ss_amount_out amount_in supply_in supply_out in
    let* new_in := ok_or (checked_add supply_in amount_in) "Overflow" in
    let* new_out := ok_or (checked_sub supply_out amount_out) "Underflow" in
    let p1 := if (inv : bool) then set_reserves p new_out new_in else set_reserves p new_in new_out in
    let* p2 := do_update_oracle now p1 in
    let* L1 := transfer P (ss_led s) asset_in who (ss_acct C) amount_in true in
    let* L2 := transfer P L1 asset_out (ss_acct C) who amount_out false in
    Ok (amount_out, ss_set s (ba, qa) p2 L2).

  (** ** Extrinsics *)

  (** [add_liquidity], 217-294 *)
  Definition ss_add (s : ss) (who : account) (pr desired minimum : Z * Z) : res ss :=
    let*' (inv, ba, qa) := sort_assets pr in
    let '(base_amount, quote_amount) := if (inv : bool) then (desired.2, desired.1) else desired in
    let '(min_base, min_quote) := if (inv : bool) then (minimum.2, minimum.1) else minimum in
    let* p := ok_or (ss_pools s !! (ba, qa)) "PoolDoesNotExist" in
    let*' (ib, iq) := ss_ideal p (base_amount, quote_amount) in
    let* _ := ensure ((ib <=? base_amount) && (iq <=? quote_amount)) "InsufficientAmountIn" in
    let* _ := ensure ((min_base <=? ib) && (min_quote <=? iq)) "NotAnIdealPrice" in
    let*' (_, p1, L1) := ss_mint_fee (ss_led s) p in
    let*' (p2, L2) := ss_do_add (ss_pools s) L1 who p1 (ib, iq) (ba, qa) in
    Ok (ss_set s (ba, qa) p2 L2).

  (** [remove_liquidity], 302-342 *)
  Definition ss_remove (s : ss) (who : account) (pr : Z * Z) (liquidity : Z) : res ss :=
    let*' (_, ba, qa) := sort_assets pr in
    let* p := ok_or (ss_pools s !! (ba, qa)) "PoolDoesNotExist" in
    let*' (_, p1, L1) := ss_mint_fee (ss_led s) p in
    let*' (_, p2, L2) := ss_do_remove L1 who p1 liquidity (ba, qa) in
    Ok (ss_set s (ba, qa) p2 L2).

  (** [create_pool], 347-417 *)
  Definition ss_create (s : ss) (o : origin) (pr amounts : Z * Z) (receiver : account) (lp : asset) : res ss :=
    let* _ := ensure (ss_origin C o) "BadOrigin" in
    let*' (inv, ba, qa) := sort_assets pr in
    let* _ := ensure (bool_decide (ss_pools s !! (ba, qa) = None)) "PoolAlreadyExists" in
    let amts := if (inv : bool) then (amounts.2, amounts.1) else amounts in
    let* _ := ensure (iss (ss_led s) lp =? 0) "LpTokenAlreadyExists" in
    let*' (p, L) := ss_do_add (ss_pools s) (ss_led s) receiver (new_pool lp) amts (ba, qa) in
    Ok (ss_set s (ba, qa) p L).

  (** ** Histories.  [STransfer], [SMint], [SBurn] are token movements outside the pallet. *)
  Inductive ss_op :=
  | SAdd (who : account) (pr desired minimum : Z * Z)
  | SRemove (who : account) (pr : Z * Z) (liquidity : Z)
  | SCreate (o : origin) (pr amounts : Z * Z) (receiver : account) (lp : asset)
  | SSwap (now : Z) (who : account) (pr : Z * Z) (amount_in : Z)
  | STransfer (a : asset) (from to : account) (amt : Z)
  | SMint (a : asset) (w : account) (amt : Z)
  | SBurn (a : asset) (w : account) (amt : Z).

  Definition ss_step (s : ss) (o : ss_op) : res ss :=
    match o with
    | SAdd who pr d m => ss_add s who pr d m
    | SRemove who pr l => ss_remove s who pr l
    | SCreate o pr amts r lp => ss_create s o pr amts r lp
    | SSwap now who pr amt => let*' (_, s') := ss_swap now s who pr amt in Ok s'
    | STransfer a f t amt => let* L := transfer P (ss_led s) a f t amt false in Ok (mkSs (ss_pools s) L)
    | SMint a w amt => let* L := mint_into P (ss_led s) a w amt in Ok (mkSs (ss_pools s) L)
    | SBurn a w amt => let* L := burn_from P (ss_led s) a w amt in Ok (mkSs (ss_pools s) L)
    end.

  (** the extrinsics are [#[transactional]] and the trait's callers run inside a transaction: on error or panic
      nothing is stored *)
  Definition ss_exec (s : ss) (o : ss_op) : ss := match ss_step s o with Ok s' => s' | _ => s end.

  Definition ss_init (L : ledger) : ss := mkSs ∅ L.
End ss.
