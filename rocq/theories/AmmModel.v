(** * AmmModel: pallets/amm/src/lib.rs (constant-product AMM).
    Line numbers below refer to that file unless another file is named. *)
From Verif Require Import Base MapSum Ledger.

(** [Pool], pallets/traits/src/lib.rs:80-89 *)
Record pool := mkPool {
  p_base : Z;              (* base_amount *)
  p_quote : Z;             (* quote_amount *)
  p_base_last : Z;         (* base_amount_last *)
  p_quote_last : Z;        (* quote_amount_last *)
  p_lp : Z;                (* lp_token_id *)
  p_ts : Z;                (* block_timestamp_last *)
  p_price0 : Z;            (* price_0_cumulative_last *)
  p_price1 : Z             (* price_1_cumulative_last *)
}.

(** [Pool::new], pallets/traits/src/lib.rs:92-103 *)
Definition new_pool (lp : Z) : pool := mkPool 0 0 0 0 lp 0 0 0.
(** [Pool::is_empty], pallets/traits/src/lib.rs:105-107 *)
Definition pool_is_empty (p : pool) : bool := (p_base p =? 0) && (p_quote p =? 0).

Definition set_reserves (p : pool) (b q : Z) : pool :=
  mkPool b q (p_base_last p) (p_quote_last p) (p_lp p) (p_ts p) (p_price0 p) (p_price1 p).
Definition set_last (p : pool) (b q : Z) : pool :=
  mkPool (p_base p) (p_quote p) b q (p_lp p) (p_ts p) (p_price0 p) (p_price1 p).
Definition set_oracle (p : pool) (ts c0 c1 : Z) : pool :=
  mkPool (p_base p) (p_quote p) (p_base_last p) (p_quote_last p) (p_lp p) ts c0 c1.

Inductive origin := Root | Signed (w : account).

(** [Config], lines 67-121 *)
Record amm_cfg := mkAmmCfg {
  amm_acct : account;            (* Self::account_id(), line 473 *)
  lock_acct : account;           (* LockAccountId *)
  lp_fee : Z;                    (* LpFee, Permill parts *)
  min_liq : Z;                   (* MinimumLiquidity *)
  native : asset;                (* GetNativeCurrencyId *)
  create_origin : origin -> bool;   (* CreatePoolOrigin *)
  fee_origin : origin -> bool       (* ProtocolFeeUpdateOrigin *)
}.

(** Storage, lines 208-229, together with the asset ledger it acts on *)
Record amm := mkAmm {
  pools : gmap (Z * Z) pool;     (* Pools: (base, quote) -> Pool *)
  pfee : Z;                      (* ProtocolFee *)
  preceiver : option account;    (* ProtocolFeeReceiver *)
  led : ledger
}.
Definition set_pool (s : amm) (k : Z * Z) (p : pool) (L : ledger) : amm :=
  mkAmm (<[k := p]> (pools s)) (pfee s) (preceiver s) L.

Section amm.
  Context (C : amm_cfg) (P : policy).

  (** [sort_assets], lines 509-527 *)
  Definition sort_assets (ab : Z * Z) : res (bool * Z * Z) :=
    let '(a, b) := ab in
    if b <? a then Ok (false, a, b)
    else if a <? b then Ok (true, b, a)
    else Err "IdenticalAssets".

  (** [quote], lines 488-507 (BigUint arithmetic, then [to_u128]) *)
  Definition quote (base_amount base_pool quote_pool : Z) : res Z :=
    ok_or (if base_pool =? 0 then None else chk (base_amount * quote_pool / base_pool)) "Overflow".

  (** [get_ideal_amounts], lines 531-552 *)
  Definition get_ideal_amounts (p : pool) (amts : Z * Z) : res (Z * Z) :=
    let '(base_amount, quote_amount) := amts in
    if pool_is_empty p then Ok (base_amount, quote_amount) else
    let* ideal_quote := quote base_amount (p_base p) (p_quote p) in
    if ideal_quote <=? quote_amount then Ok (base_amount, ideal_quote)
    else let* ideal_base := quote quote_amount (p_quote p) (p_base p) in
         Ok (ideal_base, quote_amount).

  (** [protocol_fee_on], lines 554-556 *)
  Definition protocol_fee_on (s : amm) : bool :=
    negb (pfee s =? 0) && bool_decide (is_Some (preceiver s)).

  (** [get_amount_out], lines 626-669 *)
  Definition get_amount_out (amount_in reserve_in reserve_out : Z) : res Z :=
    let fees := p_mul_ceil (lp_fee C) amount_in in
    let* ain := ok_or (checked_sub amount_in fees) "Underflow" in
    let numerator := ain * reserve_out in
    let denominator := reserve_in + ain in
    let* out := ok_or (checked_div numerator denominator) "Underflow" in
    ok_or (chk out) "Overflow".

  (** [get_amount_in], lines 681-730 *)
  Definition get_amount_in (amount_out reserve_in reserve_out : Z) : res Z :=
    let* _ := ensure (amount_out <? reserve_out) "InsufficientSupplyOut" in
    let numerator := reserve_in * amount_out in
    let denominator := reserve_out - amount_out in
    let* q := ok_or (checked_div numerator denominator) "Underflow" in
    let* ain := ok_or (chk q) "Overflow" in
    let* fee_percent := ok_or (p_checked_sub PMILL (lp_fee C)) "Underflow" in
    let* r := p_recip_mul_ceil fee_percent ain in
    ok_or (checked_add r 1) "Overflow".

  (** [get_reserves], lines 602-616 *)
  Definition get_reserves (ps : gmap (Z * Z) pool) (asset_in asset_out : Z) : res (Z * Z) :=
    let*' (inv, b, q) := sort_assets (asset_in, asset_out) in
    let* p := ok_or (ps !! (b, q)) "PoolDoesNotExist" in
    Ok (if (inv : bool) then (p_quote p, p_base p) else (p_base p, p_quote p)).

  (** [get_amounts_out], lines 564-579; an empty path indexes out of bounds *)
  Fixpoint get_amounts_out (ps : gmap (Z * Z) pool) (amount_in : Z) (path : list Z) : res (list Z) :=
    match path with
    | [] => Panic
    | a :: rest =>
        match rest with
        | [] => Ok [amount_in]
        | b :: _ =>
            let*' (ri, ro) := get_reserves ps a b in
            let* out := get_amount_out amount_in ri ro in
            let* outs := get_amounts_out ps out rest in
            Ok (amount_in :: outs)
        end
    end.

  (** [get_amounts_in], lines 583-599 (the loop runs from the last hop to the first) *)
  Fixpoint get_amounts_in (ps : gmap (Z * Z) pool) (amount_out : Z) (path : list Z) : res (list Z) :=
    match path with
    | [] => Panic
    | a :: rest =>
        match rest with
        | [] => Ok [amount_out]
        | b :: _ =>
            let* ins := get_amounts_in ps amount_out rest in
            let*' (ri, ro) := get_reserves ps a b in
            let* i := get_amount_in (hd 0 ins) ri ro in
            Ok (i :: ins)
        end
    end.

  (** [do_update_oracle], lines 734-780; [now] is the current block number *)
  Definition do_update_oracle (now : Z) (p : pool) : res pool :=
    if p_ts p =? now then Ok p else
    let elapsed := saturating_sub now (p_ts p) in
    let* n0 := ok_or (chk (elapsed * p_quote p)) "Overflow" in
    let* price0 := f_saturating_from_rational n0 (p_base p) in
    let* n1 := ok_or (chk (elapsed * p_base p)) "Overflow" in
    let* price1 := f_saturating_from_rational n1 (p_quote p) in
    let* c0 := ok_or (checked_add (p_price0 p) price0) "Overflow" in
    let* c1 := ok_or (checked_add (p_price1 p) price1) "Overflow" in
    Ok (set_oracle p now c0 c1).

  (** keep_alive flag of the transfers: "should keep alive if is native" *)
  Definition ka (a : asset) : bool := a =? native C.

  (** [do_add_liquidity], lines 783-884.  Returns the new pool and ledger. *)
  Definition do_add_liquidity (s : amm) (who : account) (p : pool) (ideal : Z * Z) (assets : Z * Z)
    : res (pool * ledger) :=
    let '(ib, iq) := ideal in
    let '(ba, qa) := assets in
    let total := iss (led s) (p_lp p) in
    let*' (liquidity, L1) :=
      (if total =? 0 then
         let* L1 := mint_into P (led s) (p_lp p) (lock_acct C) (min_liq C) in
         let r := Z.sqrt (ib * iq) - min_liq C in
         let* r := (if 0 <=? r then Ok r else Err "ConversionToU128Failed") in
         let* l := ok_or (chk r) "Underflow" in
         Ok (l, L1)
       else
         let* l0 := ok_or (checked_div (ib * total) (p_base p)) "ConversionToU128Failed" in
         let* l0 := ok_or (chk l0) "Underflow" in
         let* l1 := ok_or (checked_div (iq * total) (p_quote p)) "ConversionToU128Failed" in
         let* l1 := ok_or (chk l1) "Underflow" in
         Ok (Z.min l0 l1, led s)) in
    let* nb := ok_or (checked_add (p_base p) ib) "Overflow" in
    let* nq := ok_or (checked_add (p_quote p) iq) "Overflow" in
    let p1 := set_reserves p nb nq in
    let* L2 := mint_into P L1 (p_lp p) who liquidity in
    let* L3 := transfer P L2 ba who (amm_acct C) ib (ka ba) in
    let* L4 := transfer P L3 qa who (amm_acct C) iq (ka qa) in
    let p2 := if protocol_fee_on s then set_last p1 nb nq else p1 in
    Ok (p2, L4).

  (** [calculate_reserves_to_remove], lines 886-907 *)
  Definition calculate_reserves_to_remove (L : ledger) (p : pool) (liquidity : Z) : res (Z * Z) :=
    let total := iss L (p_lp p) in
    let* b := ok_or (checked_div (liquidity * p_base p) total) "ConversionToU128Failed" in
    let* b := ok_or (chk b) "Underflow" in
    let* q := ok_or (checked_div (liquidity * p_quote p) total) "ConversionToU128Failed" in
    let* q := ok_or (chk q) "Underflow" in
    Ok (b, q).

  (** [do_remove_liquidity], lines 910-963; [L] is the ledger after the protocol fee mint *)
  Definition do_remove_liquidity (s : amm) (L : ledger) (who : account) (p : pool) (liquidity : Z)
             (assets : Z * Z) : res (Z * Z * pool * ledger) :=
    let '(ba, qa) := assets in
    let*' (b, q) := calculate_reserves_to_remove L p liquidity in
    let* nb := ok_or (checked_sub (p_base p) b) "InsufficientLiquidity" in
    let* nq := ok_or (checked_sub (p_quote p) q) "InsufficientLiquidity" in
    let p1 := set_reserves p nb nq in
    let* L1 := burn_from P L (p_lp p) who liquidity in
    let* L2 := transfer P L1 ba (amm_acct C) who b (ka ba) in
    let* L3 := transfer P L2 qa (amm_acct C) who q (ka qa) in
    let p2 := if protocol_fee_on s then set_last p1 nb nq else p1 in
    Ok (b, q, p2, L3).

  (** [get_protocol_fee_reciprocal_proportion], lines 558-560 *)
  Definition fee_reciprocal (s : amm) : res Z := p_recip_mul_floor (pfee s) 1.

  (** [do_mint_protocol_fee], lines 966-1045.  Returns the minted fee, the pool and the ledger. *)
  Definition do_mint_protocol_fee (s : amm) (p : pool) : res (Z * pool * ledger) :=
    let k_last := p_base_last p * p_quote_last p in
    if negb (protocol_fee_on s) then
      let p' := if negb (k_last =? 0) then set_last p 0 0 else p in
      Ok (0, p', led s)
    else
    let root_k := Z.sqrt (p_base p * p_quote p) in
    let root_k_last := Z.sqrt k_last in
    if root_k <=? root_k_last then Ok (0, p, led s) else
    let total := iss (led s) (p_lp p) in
    let numerator := (root_k - root_k_last) * total in
    let* recip := fee_reciprocal s in
    let* scalar := ok_or (checked_sub recip 1) "Underflow" in
    let denominator := root_k * scalar + root_k_last in
    let* f := ok_or (checked_div numerator denominator) "Underflow" in
    let* fees := ok_or (chk f) "Overflow" in
    let* recv := ok_or (preceiver s) "ProtocolFeeReceiverNotSet" in
    let* L := mint_into P (led s) (p_lp p) recv fees in
    Ok (fees, p, L).

  (** [do_swap], lines 1047-1132; returns the amount out and the new state *)
  Definition do_swap (now : Z) (s : amm) (who : account) (pair : Z * Z) (amount_in : Z) : res (Z * amm) :=
    let '(asset_in, asset_out) := pair in
    let*' (inv, ba, qa) := sort_assets (asset_in, asset_out) in
    let* p := ok_or (pools s !! (ba, qa)) "PoolDoesNotExist" in
    let '(supply_in, supply_out) :=
      if (inv : bool) then (p_quote p, p_base p) else (p_base p, p_quote p) in
    let* min_in := p_recip_mul_ceil (lp_fee C) 1 in
    let* _ := ensure (min_in <=? amount_in) "InsufficientAmountIn" in
    let* _ := ensure (negb (supply_out =? 0)) "InsufficientAmountOut" in
    let* amount_out := get_amount_out amount_in supply_in supply_out in
    let* new_in := ok_or (checked_add supply_in amount_in) "Overflow" in
    let* new_out := ok_or (checked_sub supply_out amount_out) "Underflow" in
    let p1 := if (inv : bool) then set_reserves p new_out new_in else set_reserves p new_in new_out in
    let* p2 := do_update_oracle now p1 in
    let* L1 := transfer P (led s) asset_in who (amm_acct C) amount_in (ka asset_in) in
    let* L2 := transfer P L1 asset_out (amm_acct C) who amount_out (ka asset_out) in
    Ok (amount_out, set_pool s (ba, qa) p2 L2).

  (** ** Extrinsics *)

  (** [add_liquidity], lines 237-313 *)
  Definition add_liquidity (s : amm) (who : account) (pair desired minimum : Z * Z) : res amm :=
    let*' (inv, ba, qa) := sort_assets pair in
    let '(base_amount, quote_amount) := if (inv : bool) then (desired.2, desired.1) else desired in
    let '(min_base, min_quote) := if (inv : bool) then (minimum.2, minimum.1) else minimum in
    let* p := ok_or (pools s !! (ba, qa)) "PoolDoesNotExist" in
    let*' (ib, iq) := get_ideal_amounts p (base_amount, quote_amount) in
    let* _ := ensure ((ib <=? base_amount) && (iq <=? quote_amount)) "InsufficientAmountIn" in
    let* _ := ensure ((min_base <=? ib) && (min_quote <=? iq)) "NotAnIdealPrice" in
    let*' (_, p1, L1) := do_mint_protocol_fee s p in
    let s1 := mkAmm (pools s) (pfee s) (preceiver s) L1 in
    let*' (p2, L2) := do_add_liquidity s1 who p1 (ib, iq) (ba, qa) in
    Ok (set_pool s (ba, qa) p2 L2).

  (** [remove_liquidity], lines 322-362 *)
  Definition remove_liquidity (s : amm) (who : account) (pair : Z * Z) (liquidity : Z) : res amm :=
    let*' (_, ba, qa) := sort_assets pair in
    let* p := ok_or (pools s !! (ba, qa)) "PoolDoesNotExist" in
    let*' (_, p1, L1) := do_mint_protocol_fee s p in
    let*' (_, p2, L2) := do_remove_liquidity s L1 who p1 liquidity (ba, qa) in
    Ok (set_pool s (ba, qa) p2 L2).

  (** [create_pool], lines 373-443 *)
  Definition create_pool (s : amm) (o : origin) (pair amounts : Z * Z) (receiver lp : Z) : res amm :=
    let* _ := ensure (create_origin C o) "BadOrigin" in
    let*' (inv, ba, qa) := sort_assets pair in
    let* _ := ensure (bool_decide (pools s !! (ba, qa) = None)) "PoolAlreadyExists" in
    let amts := if (inv : bool) then (amounts.2, amounts.1) else amounts in
    let* _ := ensure (iss (led s) lp =? 0) "LpTokenAlreadyExists" in
    let*' (p, L) := do_add_liquidity s receiver (new_pool lp) amts (ba, qa) in
    Ok (set_pool s (ba, qa) p L).

  (** [update_protocol_fee], lines 448-456 *)
  Definition update_protocol_fee (s : amm) (o : origin) (fee : Z) : res amm :=
    let* _ := ensure (fee_origin C o) "BadOrigin" in
    Ok (mkAmm (pools s) fee (preceiver s) (led s)).

  (** [update_protocol_fee_receiver], lines 461-471 *)
  Definition update_protocol_fee_receiver (s : amm) (o : origin) (r : account) : res amm :=
    let* _ := ensure (fee_origin C o) "BadOrigin" in
    Ok (mkAmm (pools s) (pfee s) (Some r) (led s)).

  (** ** Histories.  [OTransfer], [OMint], [OBurn] are token movements outside the pallet
      (users' own transfers, other pallets minting or burning). *)
  Inductive amm_op :=
  | OAdd (who : account) (pair desired minimum : Z * Z)
  | ORemove (who : account) (pair : Z * Z) (liquidity : Z)
  | OCreate (o : origin) (pair amounts : Z * Z) (receiver : account) (lp : asset)
  | OSwap (now : Z) (who : account) (pair : Z * Z) (amount_in : Z)
  | OFee (o : origin) (fee : Z)
  | OReceiver (o : origin) (r : account)
  | OTransfer (a : asset) (from to : account) (amt : Z)
  | OMint (a : asset) (w : account) (amt : Z)
  | OBurn (a : asset) (w : account) (amt : Z).

  Definition set_led (s : amm) (L : ledger) : amm := mkAmm (pools s) (pfee s) (preceiver s) L.

  Definition amm_step (s : amm) (o : amm_op) : res amm :=
    match o with
    | OAdd who pr d m => add_liquidity s who pr d m
    | ORemove who pr l => remove_liquidity s who pr l
    | OCreate o pr amts r lp => create_pool s o pr amts r lp
    | OSwap now who pr amt => let*' (_, s') := do_swap now s who pr amt in Ok s'
    | OFee o fee => update_protocol_fee s o fee
    | OReceiver o r => update_protocol_fee_receiver s o r
    | OTransfer a f t amt => let* L := transfer P (led s) a f t amt false in Ok (set_led s L)
    | OMint a w amt => let* L := mint_into P (led s) a w amt in Ok (set_led s L)
    | OBurn a w amt => let* L := burn_from P (led s) a w amt in Ok (set_led s L)
    end.

  (** all extrinsics are [#[transactional]]: on error or panic nothing is stored *)
  Definition amm_exec (s : amm) (o : amm_op) : amm :=
    match amm_step s o with Ok s' => s' | _ => s end.

  Definition amm_init (L : ledger) : amm := mkAmm ∅ 0 None L.
End amm.
