(** * PriceModel: the price pallet, pallets/prices/src/lib.rs, and the token classes of primitives/src/tokens.rs.
    Prices and rates are FixedU128 inner values (x 10^18).  Timestamps are plain numbers. *)
From Verif Require Import Base Ledger AmmModel.

(** a price with its timestamp: [TimeStampedPrice] and [PriceDetail] *)
Notation tprice := (Z * Z)%type.

(** primitives/src/tokens.rs:131-147 *)
Definition is_vault_token (a : Z) : bool := (100000000 <? a) && (a <? 300000000).
Definition is_lf_lp_token (a : Z) : bool := ((5003 <? a) && (a <? 6000)) || ((6003 <? a) && (a <? 7000)).
Definition is_ls_token (a : Z) : bool := (a =? 1000) || (a =? 1001).
Definition is_auxiliary_token (a : Z) : bool := U32MAX - 10000 <=? a.

(** configuration, lib.rs:62-111 *)
Record pr_cfg := mkPrCfg {
  pc_relay : asset;                      (* RelayCurrency *)
  pc_feeder : origin -> bool;            (* FeederOrigin *)
  pc_update : origin -> bool             (* UpdateOrigin *)
}.
(** what the other pallets answer at the moment of the query *)
Record pr_env := mkPrEnv {
  pe_dec : asset -> option Z;            (* Decimal::get_decimal (u8) *)
  pe_src : asset -> option tprice;       (* Source::get: the oracle *)
  pe_liquid : option asset;              (* get_liquid_currency *)
  pe_lrate : option Z;                   (* LiquidStakingExchangeRateProvider::get_exchange_rate *)
  pe_yield : asset -> option Z;          (* VaultLoansRateProvider::get_full_interest_rate *)
  pe_isv : asset -> bool;                (* VaultTokenCurrenciesFilter::contains *)
  pe_vrate : asset -> Z -> option Z;     (* VaultTokenExchangeRateProvider::get_exchange_rate *)
  pe_pool : asset -> option (asset * asset * pool);   (* AMM::get_pool_by_lp_asset *)
  pe_iss : asset -> Z                    (* Assets::total_issuance *)
}.
(** storage: EmergencyPrice, ForeignToNativeAsset, 122-134 *)
Record prices := mkPrices { pr_emg : gmap Z Z; pr_foreign : gmap Z Z }.

(** [AMM::get_pool_by_lp_asset], pallets/amm/src/lib.rs:1181-1194 (the first pool found, in some order) *)
Definition pool_by_lp (s : amm) (lp : asset) : option (asset * asset * pool) :=
  match filter (fun e : (Z * Z) * pool => p_lp e.2 = lp) (map_to_list (pools s)) with
  | (k, p) :: _ => Some (k.1, k.2, p)
  | [] => None
  end.

(** value carried into an [Option]-returning function; a panic stays a panic *)
Definition bind_o {A B} (r : res (option A)) (k : A -> res (option B)) : res (option B) :=
  let* o := r in match o with Some a => k a | None => Ok None end.
Definition lift {A} (o : option A) : res (option A) := Ok o.

Section prices.
  Context (C : pr_cfg) (E : pr_env).

  (** [get_asset_mantissa], 199-201: 10u128.checked_pow(decimals) *)
  Definition mantissa (a : asset) : option Z :=
    match pe_dec E a with Some d => chk (10 ^ d) | None => None end.
  (** [get_emergency_price], 185-197 *)
  Definition emergency_price (s : prices) (a : asset) : option tprice :=
    match pr_emg s !! a with
    | Some p => match mantissa a with
                | Some m => match f_checked_div p m with Some x => Some (x, 0) | None => None end
                | None => None end
    | None => None
    end.
  (** [normalize_detail_price], 222-227 *)
  Definition normalize (p : tprice) (m : Z) : option tprice :=
    match f_checked_div p.1 m with Some x => Some (x, p.2) | None => None end.
  (** [scale_timestamped_price], 229-240 *)
  Definition scale (p : tprice) (rate : Z) : option tprice :=
    match f_checked_mul p.1 rate with Some x => Some (x, p.2) | None => None end.
  (** [get_staking_asset_price], 242-251 *)
  Definition staking_price (a : asset) (base : tprice) : option tprice :=
    match pe_liquid E with
    | Some l => if l =? a then match pe_lrate E with Some r => scale base r | None => None end else None
    | None => None
    end.
  (** [get_vault_asset_price], 253-263 *)
  Definition vault_price (a : asset) (base : tprice) : option tprice :=
    match pe_yield E a with
    | Some y => if pe_isv E a then match pe_vrate E a y with Some r => scale base r | None => None end else None
    | None => None
    end.
  (** [get_lp_vault_asset_price], 265-295; [saturating_from_rational] panics on a zero issuance; the mantissa quotient becomes
      a fixed-point number by saturation *)
  Definition lp_price (a : asset) (base : tprice) : res (option tprice) :=
    bind_o (lift (mantissa a)) (fun m =>
    bind_o (lift (match pe_pool E a with
                  | Some (b, q, p) => if (q =? pc_relay C) && pe_isv E b then Some (b, p) else None
                  | None => None end)) (fun bp =>
    bind_o (lift (mantissa bp.1)) (fun bm =>
    bind_o (lift (checked_div m bm)) (fun diff =>
    bind_o (lift (chk (Z.sqrt (p_base bp.2 * p_quote bp.2) * 2))) (fun liq =>
    let* rate := f_saturating_from_rational liq (pe_iss E a) in
    bind_o (lift (vault_price bp.1 base)) (fun vp =>
    bind_o (lift (f_checked_mul vp.1 rate)) (fun x =>
    bind_o (lift (f_checked_mul x (sat128 (diff * FDIV)))) (fun y => Ok (Some (y, vp.2)))))))))).
  (** [get_special_asset_price], 203-220; [n] bounds the recursion depth: running out of it stands for an exhausted stack *)
  Fixpoint special_price (n : nat) (s : prices) (a : asset) (base : tprice) : res (option tprice) :=
    if is_ls_token a then Ok (staking_price a base)
    else if is_vault_token a then Ok (vault_price a base)
    else if is_lf_lp_token a then lp_price a base
    else if is_auxiliary_token a then Ok (Some base)
    else match pr_foreign s !! a with
         | Some b => match n with S n' => special_price n' s b base | O => Panic end
         | None => Ok None
         end.
  (** [get_price], 307-317, with recursion depth [n] *)
  Definition get_price (n : nat) (s : prices) (a : asset) : res (option tprice) :=
    match emergency_price s a with
    | Some p => Ok (Some p)
    | None =>
        match mantissa a with
        | None => Ok None
        | Some m =>
            let* sp := match pe_src E (pc_relay C) with Some base => special_price n s a base | None => Ok None end in
            let p := match sp with Some x => Some x | None => pe_src E a end in
            Ok (match p with Some x => normalize x m | None => None end)
        end
    end.
  (** [get_no_op], 334-339 (the raw price, never an emergency price) *)
  Definition get_no_op (n : nat) (s : prices) (a : asset) : res (option tprice) :=
    match mantissa a with
    | None => Ok None
    | Some _ =>
        let* sp := match pe_src E (pc_relay C) with Some base => special_price n s a base | None => Ok None end in
        Ok (match sp with Some x => Some x | None => pe_src E a end)
    end.

  (** extrinsics [set_price] 146-157, [reset_price] 163-170, [set_foreign_asset] 176-184 *)
  Inductive pr_op :=
  | PSet (o : origin) (a : asset) (p : Z)
  | PReset (o : origin) (a : asset)
  | PForeign (o : origin) (f a : asset).
  Definition pr_step (s : prices) (op : pr_op) : res prices :=
    match op with
    | PSet o a p => let* _ := ensure (pc_feeder C o) "BadOrigin" in Ok (mkPrices (<[a := p]> (pr_emg s)) (pr_foreign s))
    | PReset o a => let* _ := ensure (pc_feeder C o) "BadOrigin" in Ok (mkPrices (delete a (pr_emg s)) (pr_foreign s))
    | PForeign o f a => let* _ := ensure (pc_update C o) "BadOrigin" in Ok (mkPrices (pr_emg s) (<[f := a]> (pr_foreign s)))
    end.
End prices.
