(** * LoansModel: pallets/loans/src (lib.rs, interest.rs, rate_model.rs, ptoken.rs, farming.rs, types.rs).
    Unqualified line numbers refer to lib.rs; "interest", "rate_model", "ptoken", "farming", "types" to the other
    files of pallets/loans/src.
    Simplifications (all of them): events and log output are not modelled; [Self::incentive_reward_account_id] and
    [reward_account_id] never fail (decoding 32 bytes into an account) and are arbitrary accounts of the
    configuration; [get_total_cash] (reducible balance of the pallet account) is its balance, i.e. the pallet account
    has no locked or frozen funds; the oracle is an arbitrary map of prices, changed by an explicit step;
    [T::Lookup] is the identity; iteration over [Markets] is in the order of the finite map. *)
From Verif Require Import Base MapSum Ledger AmmModel.

(** ** Interest rate models (rate_model.rs) *)
(** [InterestRateModel], rate_model 24-27; [JumpModel] 87-96; [CurveModel] 163-165.  Rates: FixedU128; utilisation: Permill *)
Inductive rate_model :=
| Jump (base jump full : Z) (ju : Z)
| Curve (base : Z).

(** constants, rate_model 99-101 and 168 *)
Definition MAX_BASE : Z := 10 ^ 17.
Definition MAX_JUMP : Z := 3 * 10 ^ 17.
Definition MAX_FULL : Z := 5 * 10 ^ 17.
Definition MAX_CURVE_BASE : Z := 10 ^ 17.

(** [check_model], rate_model 59-64, 119-131, 176-178 *)
Definition check_model (m : rate_model) : bool :=
  match m with
  | Jump base jump full ju =>
      if (MAX_BASE <? base) || (MAX_JUMP <? jump) || (MAX_FULL <? full) then false
      else if (jump <? base) || (full <? jump) then false else true
  | Curve base => base <=? MAX_CURVE_BASE
  end.

(** FixedU128 [saturating_pow(9)] by square-and-multiply (9 = 0b1001), sp-arithmetic fixed_point.rs *)
Definition f_pow9 (x : Z) : Z :=
  let r := f_saturating_mul FDIV x in
  let x2 := f_saturating_mul x x in
  let x4 := f_saturating_mul x2 x2 in
  let x8 := f_saturating_mul x4 x4 in
  f_saturating_mul r x8.

Definition obind {A B} (o : option A) (k : A -> option B) : option B := match o with Some a => k a | None => None end.

(** [get_borrow_rate], rate_model 67-72, 134-157, 181-187 *)
Definition get_borrow_rate (m : rate_model) (u : Z) : option Z :=
  match m with
  | Jump base jump full ju =>
      if u <=? ju then
        obind (checked_sub jump base) (fun d =>
        obind (f_checked_div (f_saturating_mul d (f_of_permill u)) (f_of_permill ju)) (fun q =>
        checked_add q base))
      else
        let excess := saturating_sub u ju in
        obind (checked_sub full jump) (fun d =>
        obind (f_checked_div (f_saturating_mul d (f_of_permill excess)) (f_of_permill (saturating_sub PMILL ju))) (fun q =>
        checked_add q jump))
  | Curve base => checked_add (f_pow9 (f_of_permill u)) base
  end.

(** [get_supply_rate], rate_model 75-81 *)
Definition get_supply_rate (borrow_rate util reserve_factor : Z) : Z :=
  f_saturating_mul (f_saturating_mul borrow_rate (f_of_permill (saturating_sub PMILL reserve_factor))) (f_of_permill util).

(** ** Types *)
(** [MarketState], types 36-40 *)
Inductive mkt_state := Active | Pending | Supervision.
Global Instance mkt_state_eq : EqDecision mkt_state. Proof. solve_decision. Defined.

(** [Market], types 47-71 *)
Record market := mkMarket {
  mk_cf : Z;          (* collateral_factor, Permill *)
  mk_lt : Z;          (* liquidation_threshold, Permill *)
  mk_rf : Z;          (* reserve_factor, Permill *)
  mk_close : Z;       (* close_factor, Permill *)
  mk_inc : Z;         (* liquidate_incentive, FixedU128 *)
  mk_incres : Z;      (* liquidate_incentive_reserved_factor, Permill *)
  mk_model : rate_model;
  mk_state : mkt_state;
  mk_scap : Z; mk_bcap : Z; mk_pt : Z
}.

(** per-market accounting storage (all ValueQuery, default 0): lines 272-276, 285-304, 346-374 *)
Record macc := mkMacc {
  m_last : Z; m_supply : Z; m_borrows : Z; m_res : Z; m_index : Z; m_ex : Z; m_util : Z; m_brate : Z; m_srate : Z
}.
Definition macc0 : macc := mkMacc 0 0 0 0 0 0 0 0 0.
(** per-market reward storage: [RewardSupplySpeed], [RewardBorrowSpeed], [RewardSupplyState], [RewardBorrowState], lines 389-420 *)
Record mrew := mkMrew { r_ss : Z; r_bs : Z; r_si : Z; r_sb : Z; r_bi : Z; r_bb : Z }.
Definition mrew0 : mrew := mkMrew 0 0 0 0 0 0.

(** [Deposits], types 26-31; [BorrowSnapshot] 8-13; [EarnedSnapshot] 17-22 *)
Record deposit := mkDep { d_v : Z; d_col : bool }.
Definition dep0 : deposit := mkDep 0 false.
Record debt := mkDebt { b_p : Z; b_i : Z }.
Definition debt0 : debt := mkDebt 0 0.
Record earned := mkEarn { e_total : Z; e_rate : Z }.
Definition earn0 : earned := mkEarn 0 0.

(** [Config], lines 107-142, and the three accounts of the pallet (1189-1191, 2066-2070, farming 21-25) *)
Record loans_cfg := mkLoansCfg {
  ln_acct : account; inc_acct : account; rew_acct : account; rew_asset : asset; lf_asset : asset;
  ln_update : origin -> bool; ln_reserve : origin -> bool
}.

(** Storage, lines 272-455, with oracle prices, ledger, unix time (seconds) and block number *)
Record loans := mkLoans {
  ln_mkts : gmap Z market; ln_under : gmap Z Z; ln_acc : gmap Z macc; ln_rew : gmap Z mrew;
  ln_deps : gmap (Z * Z) deposit; ln_debts : gmap (Z * Z) debt; ln_earn : gmap (Z * Z) earned;
  ln_six : gmap (Z * Z) Z; ln_bix : gmap (Z * Z) Z; ln_racc : gmap Z Z;
  ln_free : list Z; ln_price : gmap Z Z; ln_led : ledger; ln_time : Z; ln_block : Z
}.

(** constants, lines 76-78, primitives/src/lib.rs:104, farming 27-29 *)
Definition MAX_EXRATE : Z := 10 ^ 18.
Definition MIN_EXRATE : Z := 2 * 10 ^ 16.
Definition MIN_VALID_EXRATE : Z := 15 * 10 ^ 15.
Definition SPY : Z := 31536000.
Definition RSCALE : Z := 10 ^ 12.
Global Opaque MAX_EXRATE MIN_EXRATE MIN_VALID_EXRATE SPY RSCALE.

(** storage getters (ValueQuery) *)
Definition acc_of (s : loans) (a : asset) : macc := default macc0 (ln_acc s !! a).
Definition rew_of (s : loans) (a : asset) : mrew := default mrew0 (ln_rew s !! a).
Definition dep_of (s : loans) (a : asset) (w : account) : deposit := default dep0 (ln_deps s !! (a, w)).
Definition debt_of (s : loans) (a : asset) (w : account) : debt := default debt0 (ln_debts s !! (a, w)).
Definition earn_of (s : loans) (a : asset) (w : account) : earned := default earn0 (ln_earn s !! (a, w)).
Definition six_of (s : loans) (a : asset) (w : account) : Z := default 0 (ln_six s !! (a, w)).
Definition bix_of (s : loans) (a : asset) (w : account) : Z := default 0 (ln_bix s !! (a, w)).
Definition racc_of (s : loans) (w : account) : Z := default 0 (ln_racc s !! w).

(** storage setters *)
Definition st_mkts (s : loans) x := mkLoans x (ln_under s) (ln_acc s) (ln_rew s) (ln_deps s) (ln_debts s) (ln_earn s) (ln_six s) (ln_bix s) (ln_racc s) (ln_free s) (ln_price s) (ln_led s) (ln_time s) (ln_block s).
Definition st_under (s : loans) x := mkLoans (ln_mkts s) x (ln_acc s) (ln_rew s) (ln_deps s) (ln_debts s) (ln_earn s) (ln_six s) (ln_bix s) (ln_racc s) (ln_free s) (ln_price s) (ln_led s) (ln_time s) (ln_block s).
Definition st_acc (s : loans) x := mkLoans (ln_mkts s) (ln_under s) x (ln_rew s) (ln_deps s) (ln_debts s) (ln_earn s) (ln_six s) (ln_bix s) (ln_racc s) (ln_free s) (ln_price s) (ln_led s) (ln_time s) (ln_block s).
Definition st_rew (s : loans) x := mkLoans (ln_mkts s) (ln_under s) (ln_acc s) x (ln_deps s) (ln_debts s) (ln_earn s) (ln_six s) (ln_bix s) (ln_racc s) (ln_free s) (ln_price s) (ln_led s) (ln_time s) (ln_block s).
Definition st_deps (s : loans) x := mkLoans (ln_mkts s) (ln_under s) (ln_acc s) (ln_rew s) x (ln_debts s) (ln_earn s) (ln_six s) (ln_bix s) (ln_racc s) (ln_free s) (ln_price s) (ln_led s) (ln_time s) (ln_block s).
Definition st_debts (s : loans) x := mkLoans (ln_mkts s) (ln_under s) (ln_acc s) (ln_rew s) (ln_deps s) x (ln_earn s) (ln_six s) (ln_bix s) (ln_racc s) (ln_free s) (ln_price s) (ln_led s) (ln_time s) (ln_block s).
Definition st_earn (s : loans) x := mkLoans (ln_mkts s) (ln_under s) (ln_acc s) (ln_rew s) (ln_deps s) (ln_debts s) x (ln_six s) (ln_bix s) (ln_racc s) (ln_free s) (ln_price s) (ln_led s) (ln_time s) (ln_block s).
Definition st_six (s : loans) x := mkLoans (ln_mkts s) (ln_under s) (ln_acc s) (ln_rew s) (ln_deps s) (ln_debts s) (ln_earn s) x (ln_bix s) (ln_racc s) (ln_free s) (ln_price s) (ln_led s) (ln_time s) (ln_block s).
Definition st_bix (s : loans) x := mkLoans (ln_mkts s) (ln_under s) (ln_acc s) (ln_rew s) (ln_deps s) (ln_debts s) (ln_earn s) (ln_six s) x (ln_racc s) (ln_free s) (ln_price s) (ln_led s) (ln_time s) (ln_block s).
Definition st_racc (s : loans) x := mkLoans (ln_mkts s) (ln_under s) (ln_acc s) (ln_rew s) (ln_deps s) (ln_debts s) (ln_earn s) (ln_six s) (ln_bix s) x (ln_free s) (ln_price s) (ln_led s) (ln_time s) (ln_block s).
Definition st_free (s : loans) x := mkLoans (ln_mkts s) (ln_under s) (ln_acc s) (ln_rew s) (ln_deps s) (ln_debts s) (ln_earn s) (ln_six s) (ln_bix s) (ln_racc s) x (ln_price s) (ln_led s) (ln_time s) (ln_block s).
Definition st_price (s : loans) x := mkLoans (ln_mkts s) (ln_under s) (ln_acc s) (ln_rew s) (ln_deps s) (ln_debts s) (ln_earn s) (ln_six s) (ln_bix s) (ln_racc s) (ln_free s) x (ln_led s) (ln_time s) (ln_block s).
Definition st_led (s : loans) x := mkLoans (ln_mkts s) (ln_under s) (ln_acc s) (ln_rew s) (ln_deps s) (ln_debts s) (ln_earn s) (ln_six s) (ln_bix s) (ln_racc s) (ln_free s) (ln_price s) x (ln_time s) (ln_block s).
Definition st_clock (s : loans) t b := mkLoans (ln_mkts s) (ln_under s) (ln_acc s) (ln_rew s) (ln_deps s) (ln_debts s) (ln_earn s) (ln_six s) (ln_bix s) (ln_racc s) (ln_free s) (ln_price s) (ln_led s) t b.

Definition put_acc (s : loans) (a : asset) (m : macc) : loans := st_acc s (<[a := m]> (ln_acc s)).
Definition put_rew (s : loans) (a : asset) (m : mrew) : loans := st_rew s (<[a := m]> (ln_rew s)).
Definition put_dep (s : loans) (a : asset) (w : account) (d : deposit) : loans := st_deps s (<[(a, w) := d]> (ln_deps s)).
(** [try_mutate_exists] that removes the entry when the voucher balance is zero (1480-1489, ptoken 171-177) *)
Definition put_dep_or_remove (s : loans) (a : asset) (w : account) (d : deposit) : loans :=
  if d_v d =? 0 then st_deps s (delete (a, w) (ln_deps s)) else put_dep s a w d.
Definition put_debt (s : loans) (a : asset) (w : account) (d : debt) : loans := st_debts s (<[(a, w) := d]> (ln_debts s)).
Definition set_supply (m : macc) (x : Z) : macc := mkMacc (m_last m) x (m_borrows m) (m_res m) (m_index m) (m_ex m) (m_util m) (m_brate m) (m_srate m).
Definition set_borrows (m : macc) (x : Z) : macc := mkMacc (m_last m) (m_supply m) x (m_res m) (m_index m) (m_ex m) (m_util m) (m_brate m) (m_srate m).
Definition set_reserves (m : macc) (x : Z) : macc := mkMacc (m_last m) (m_supply m) (m_borrows m) x (m_index m) (m_ex m) (m_util m) (m_brate m) (m_srate m).

Section loans_sec.
  Context (C : loans_cfg) (P : policy).

  (** ** Markets and prices *)
  (** [market], 2016-2018 *)
  Definition get_market (s : loans) (a : asset) : res market := ok_or (ln_mkts s !! a) "MarketDoesNotExist".
  Definition is_active (m : market) : bool := bool_decide (mk_state m = Active).
  (** [active_markets], 2042-2044 *)
  Definition active_list (s : loans) : list (Z * market) := List.filter (fun am => is_active am.2) (map_to_list (ln_mkts s)).
  (** [ensure_active_market], 1863-1868 *)
  Definition ensure_active (s : loans) (a : asset) : res market :=
    match ln_mkts s !! a with
    | Some m => if is_active m then Ok m else Err "MarketNotActivated"
    | None => Err "MarketNotActivated"
    end.
  (** [get_total_cash], 1972-1974 *)
  Definition cash (s : loans) (a : asset) : Z := bal (ln_led s) a (ln_acct C).
  (** [get_price], 1982-1993 *)
  Definition get_price (s : loans) (a : asset) : res Z :=
    let* p := ok_or (ln_price s !! a) "PriceOracleNotReady" in
    let* _ := ensure (negb (p =? 0)) "PriceIsZero" in Ok p.
  (** [get_asset_value], 2002-2011 *)
  Definition asset_value (s : loans) (a : asset) (amt : Z) : res Z :=
    let* p := get_price s a in ok_or (f_checked_mul p amt) "Overflow".
  (** [underlying_id], 2049-2052 *)
  Definition underlying (s : loans) (pt : asset) : res Z := ok_or (ln_under s !! pt) "InvalidPtokenId".
  (** [is_auxiliary_token], primitives/src/tokens.rs:145-147 *)
  Definition is_aux (a : asset) : bool := U32MAX - 10000 <=? a.
  (** [liquidation_free_collaterals().contains(&asset_id)] *)
  Definition is_lf (s : loans) (a : asset) : bool := bool_decide (a ∈ ln_free s).

  (** ** Interest (interest.rs) *)
  (** [calc_utilization_ratio], interest 137-152 *)
  Definition calc_util (cash borrows reserves : Z) : res Z :=
    if borrows =? 0 then Ok 0 else
    let* t := ok_or (obind (checked_add cash borrows) (fun r => checked_sub r reserves)) "Overflow" in
    Ok (p_from_rational borrows t).
  (** [ensure_valid_exchange_rate] and [calculate_exchange_rate], interest 155-163, 193-213 *)
  Definition calc_exrate (supply cash borrows reserves : Z) : res Z :=
    if supply =? 0 then Ok MIN_EXRATE else
    let* n := ok_or (obind (checked_add cash borrows) (fun r => checked_sub r reserves)) "Overflow" in
    let* r := ok_or (f_checked_from_rational n supply) "Underflow" in
    let* _ := ensure ((MIN_VALID_EXRATE <=? r) && (r <? MAX_EXRATE)) "InvalidExchangeRate" in
    Ok r.
  (** [exchange_rate_stored], interest 125-132 *)
  Definition exrate (s : loans) (a : asset) : res Z :=
    let m := acc_of s a in calc_exrate (m_supply m) (cash s a) (m_borrows m) (m_res m).
  (** [accrued_interest], interest 175-184 *)
  Definition accrued_interest (rate amt dt : Z) : option Z :=
    obind (f_checked_mul_int rate amt) (fun x => obind (checked_mul x dt) (fun y => checked_div y SPY)).
  (** [increment_index], interest 186-191 ([saturating_from_integer] of a u64 does not saturate) *)
  Definition increment_index (rate index dt : Z) : option Z :=
    obind (f_checked_mul rate index) (fun x => obind (f_checked_mul x (dt * FDIV)) (fun y => f_checked_div y (SPY * FDIV))).
  (** [get_market_status], interest 58-120: the accounting record after accrual up to the current time
      (fields in the order of [macc]; [m_last] is set by the caller) *)
  Definition market_status (s : loans) (a : asset) : res macc :=
    let* mk := get_market s a in
    let m := acc_of s a in
    let* util := calc_util (cash s a) (m_borrows m) (m_res m) in
    let* brate := ok_or (get_borrow_rate (mk_model mk) util) "Overflow" in
    let srate := get_supply_rate brate util (mk_rf mk) in
    let now := ln_time s in
    let*' (borrows, reserves, index) :=
      (if m_last m <? now then
         let dt := now - m_last m in
         let* i := ok_or (accrued_interest brate (m_borrows m) dt) "Overflow" in
         let* b := ok_or (checked_add i (m_borrows m)) "Overflow" in
         let* r := ok_or (checked_add (p_mul_floor (mk_rf mk) i) (m_res m)) "Overflow" in
         let* x := ok_or (obind (increment_index brate (m_index m) dt) (fun d => checked_add d (m_index m))) "Overflow" in
         Ok (b, r, x)
       else Ok (m_borrows m, m_res m, m_index m)) in
    let* ex := calc_exrate (m_supply m) (cash s a) borrows reserves in
    Ok (mkMacc (m_last m) (m_supply m) borrows reserves index ex util brate srate).
  (** [accrue_interest], interest 22-56 *)
  Definition accrue (s : loans) (a : asset) : res loans :=
    let m := acc_of s a in
    let now := ln_time s in
    if m_last m =? 0 then
      Ok (put_acc s a (mkMacc now (m_supply m) (m_borrows m) (m_res m) (m_index m) (m_ex m) (m_util m) (m_brate m) (m_srate m)))
    else if now <=? m_last m then Ok s
    else
      let* n := market_status s a in
      Ok (put_acc s a (mkMacc now (m_supply n) (m_borrows n) (m_res n) (m_index n) (m_ex n) (m_util n) (m_brate n) (m_srate n))).

  (** [calc_underlying_amount], 1953-1960; [calc_collateral_amount], 1962-1970 *)
  Definition to_underlying (v rate : Z) : res Z := ok_or (f_checked_mul_int rate v) "Overflow".
  Definition to_voucher (amt rate : Z) : res Z := ok_or (f_checked_div amt rate) "Underflow".
  (** [current_borrow_balance], 1561-1577 *)
  Definition borrow_balance (s : loans) (w : account) (a : asset) : res Z :=
    let d := debt_of s a w in
    if (b_p d =? 0) || (b_i d =? 0) then Ok 0 else
    ok_or (obind (f_checked_div (m_index (acc_of s a)) (b_i d)) (fun r => f_checked_mul_int r (b_p d))) "Overflow".
  (** [update_earned_stored], 1580-1608 *)
  Definition update_earned (s : loans) (w : account) (a : asset) (rate : Z) : res loans :=
    let d := dep_of s a w in
    let e := earn_of s a w in
    let* t := (if e_rate e <=? rate then
                 ok_or (obind (checked_sub rate (e_rate e)) (fun dl => obind (f_checked_mul_int dl (d_v d)) (fun x => checked_add x (e_total e)))) "Overflow"
               else Ok (e_total e)) in
    Ok (st_earn s (<[(a, w) := mkEarn t rate]> (ln_earn s))).

  (** ** Account values *)
  (** sum of a per-market value over a list of markets ([checked_add] of FixedU128) *)
  Fixpoint sum_values (f : Z -> res Z) (l : list Z) (acc : Z) : res Z :=
    match l with
    | [] => Ok acc
    | a :: l' => let* v := f a in let* t := ok_or (checked_add acc v) "Overflow" in sum_values f l' t
    end.
  Definition actives (s : loans) : list Z := map fst (active_list s).
  Definition lf_actives (s : loans) : list Z := List.filter (is_lf s) (actives s).
  (** body of [total_borrowed_value], 1323-1336 (a zero balance is skipped before the price is read) *)
  Definition debt_value (s : loans) (w : account) (a : asset) : res Z :=
    let* b := borrow_balance s w a in
    if b =? 0 then Ok 0 else asset_value s a b.
  Definition total_borrowed (s : loans) (w : account) : res Z := sum_values (debt_value s w) (actives s) 0.
  (** [current_collateral_balance], 1338-1359, for a given factor (collateral factor or liquidation threshold) *)
  Definition collateral_amount (factor : market -> Z) (s : loans) (w : account) (a : asset) : res Z :=
    match ln_deps s !! (a, w) with
    | None => Ok 0
    | Some d =>
        if negb (d_col d) then Ok 0 else if d_v d =? 0 then Ok 0 else
        let* r := exrate s a in
        let* u := to_underlying (d_v d) r in
        let* mk := get_market s a in
        Ok (p_mul_ceil (factor mk) u)
    end.
  (** [collateral_asset_value], 1361-1368 (reads the price even for a zero amount) *)
  Definition collateral_value (s : loans) (w : account) (a : asset) : res Z :=
    let* x := collateral_amount mk_cf s w a in asset_value s a x.
  (** [liquidation_threshold_asset_value], 1370-1391 (no price needed without an enabled non-zero deposit) *)
  Definition threshold_value (s : loans) (w : account) (a : asset) : res Z :=
    match ln_deps s !! (a, w) with
    | None => Ok 0
    | Some d =>
        if negb (d_col d) then Ok 0 else if d_v d =? 0 then Ok 0 else
        let* x := collateral_amount mk_lt s w a in asset_value s a x
    end.
  (** [total_collateral_value], 1393-1402; [total_liquidation_threshold_value], 1404-1417 *)
  Definition total_collateral (s : loans) (w : account) : res Z := sum_values (collateral_value s w) (actives s) 0.
  Definition total_threshold (s : loans) (w : account) : res Z := sum_values (threshold_value s w) (actives s) 0.
  (** [get_lf_borrowed_value], 1193-1197; [get_lf_base_position], 1199-1209; [get_lf_liquidation_base_position], 1211-1223 *)
  Definition lf_borrowed (s : loans) (w : account) : res Z :=
    let* b := borrow_balance s w (lf_asset C) in asset_value s (lf_asset C) b.
  Definition lf_base (s : loans) (w : account) : res Z := sum_values (collateral_value s w) (lf_actives s) 0.
  Definition lf_threshold (s : loans) (w : account) : res Z := sum_values (threshold_value s w) (lf_actives s) 0.

  (** the four-way match shared by 1242-1270 and 1292-1320: (liquidity, shortfall, lf liquidity, lf shortfall) *)
  Definition liquidity4 (B Co lB lC : Z) : Z * Z * Z * Z :=
    match B <? Co, lB <? lC with
    | true, true => (Co - B, 0, lC - lB, 0)
    | true, false => (Co - B, 0, 0, lB - lC)
    | false, true => (0, B - Co, lC - lB, 0)
    | false, false => (0, B - Co, 0, lB - lC)
    end.
  (** [get_account_liquidity], 1225-1271 *)
  Definition account_liquidity (s : loans) (w : account) : res (Z * Z * Z * Z) :=
    let* B := total_borrowed s w in
    let* Co := total_collateral s w in
    let* lB := lf_borrowed s w in
    let* lC := lf_base s w in
    Ok (liquidity4 B Co lB lC).
  (** [get_account_liquidation_threshold_liquidity], 1273-1321 *)
  Definition threshold_liquidity (s : loans) (w : account) : res (Z * Z * Z * Z) :=
    let* B := total_borrowed s w in
    let* Co := total_threshold s w in
    let* lB := lf_borrowed s w in
    let* lC := lf_threshold s w in
    Ok (liquidity4 B Co lB lC).
  (** [ensure_liquidity], 1936-1951 (the raw addition of two FixedU128 panics on overflow) *)
  Definition ensure_liquidity (s : loans) (w : account) (x : Z) (lf : bool) : res unit :=
    let* q := account_liquidity s w in
    let '(total, _, lfl, _) := q in
    if lf && (x <=? Z.max total lfl) then Ok tt
    else if lf then Err "InsufficientLiquidity"
    else let* t := raw_add lfl x in
         ensure (t <=? total) "InsufficientLiquidity".
  (** [ensure_under_supply_cap], 1871-1884; [ensure_under_borrow_cap], 1887-1899; [ensure_enough_cash], 1902-1911 *)
  Definition under_supply_cap (s : loans) (a : asset) (amt : Z) : res unit :=
    let* mk := get_market s a in
    let* t := ok_or (checked_add (bal (ln_led s) a (ln_acct C)) amt) "Overflow" in
    ensure (t <=? mk_scap mk) "SupplyCapacityExceeded".
  Definition under_borrow_cap (s : loans) (a : asset) (amt : Z) : res unit :=
    let* mk := get_market s a in
    let* t := ok_or (checked_add (m_borrows (acc_of s a)) amt) "Overflow" in
    ensure (t <=? mk_bcap mk) "BorrowCapacityExceeded".
  Definition enough_cash (s : loans) (a : asset) (amt : Z) : res unit :=
    let* c := ok_or (checked_sub (cash s a) (m_res (acc_of s a))) "Underflow" in
    ensure (amt <=? c) "InsufficientCash".

  (** ** Rewards (farming.rs) *)
  (** [calculate_reward_delta_index], farming 31-48; [calculate_reward_delta], 50-61 (BigUint arithmetic) *)
  Definition delta_index (dblk speed share : Z) : res Z :=
    if share =? 0 then Ok 0 else ok_or (chk (dblk * speed * RSCALE / share)) "Overflow".
  Definition reward_delta (share dix : Z) : res Z := ok_or (chk (share * dix / RSCALE)) "Overflow".
  (** [update_reward_supply_index], farming 63-84 *)
  Definition upd_supply_index (s : loans) (a : asset) : res loans :=
    let r := rew_of s a in
    let dblk := saturating_sub (ln_block s) (r_sb r) in
    if dblk =? 0 then Ok s else
    let* i := (if r_ss r =? 0 then Ok (r_si r) else
                 let* d := delta_index dblk (r_ss r) (m_supply (acc_of s a)) in
                 ok_or (checked_add (r_si r) d) "Overflow") in
    Ok (put_rew s a (mkMrew (r_ss r) (r_bs r) i (ln_block s) (r_bi r) (r_bb r))).
  (** [current_borrow_index.reciprocal().and_then(|r| r.checked_mul_int(amount))], farming 97-100, 171-174 *)
  Definition base_borrow (index amt : Z) : option Z := obind (f_reciprocal index) (fun r => f_checked_mul_int r amt).
  (** [update_reward_borrow_index], farming 86-115 *)
  Definition upd_borrow_index (s : loans) (a : asset) : res loans :=
    let r := rew_of s a in
    let dblk := saturating_sub (ln_block s) (r_bb r) in
    if dblk =? 0 then Ok s else
    let* i := (if r_bs r =? 0 then Ok (r_bi r) else
                 let* share := ok_or (base_borrow (m_index (acc_of s a)) (m_borrows (acc_of s a))) "Overflow" in
                 let* d := delta_index dblk (r_bs r) share in
                 ok_or (checked_add (r_bi r) d) "Overflow") in
    Ok (put_rew s a (mkMrew (r_ss r) (r_bs r) (r_si r) (r_sb r) i (ln_block s))).
  (** [distribute_supplier_reward], farming 117-150 *)
  Definition dist_supplier (s : loans) (a : asset) (w : account) : res loans :=
    let i := r_si (rew_of s a) in
    let* d := ok_or (checked_sub i (six_of s a w)) "Underflow" in
    let* x := reward_delta (d_v (dep_of s a w)) d in
    let* t := ok_or (checked_add (racc_of s w) x) "Overflow" in
    Ok (st_racc (st_six s (<[(a, w) := i]> (ln_six s))) (<[w := t]> (ln_racc s))).
  (** [distribute_borrower_reward], farming 152-190 *)
  Definition dist_borrower (s : loans) (a : asset) (w : account) : res loans :=
    let i := r_bi (rew_of s a) in
    let* d := ok_or (checked_sub i (bix_of s a w)) "Underflow" in
    let* b := borrow_balance s w a in
    let* share := ok_or (base_borrow (m_index (acc_of s a)) b) "Overflow" in
    let* x := reward_delta share d in
    let* t := ok_or (checked_add (racc_of s w) x) "Overflow" in
    Ok (st_racc (st_bix s (<[(a, w) := i]> (ln_bix s))) (<[w := t]> (ln_racc s))).
  (** [collect_market_reward], farming 192-203 *)
  Definition collect_reward (s : loans) (a : asset) (w : account) : res loans :=
    let* s1 := upd_supply_index s a in
    let* s2 := dist_supplier s1 a w in
    let* s3 := upd_borrow_index s2 a in
    dist_borrower s3 a w.
  (** [pay_reward], farming 205-215 *)
  Definition pay_reward (s : loans) (w : account) : res loans :=
    let t := racc_of s w in
    if 0 <? t then
      let* L := transfer P (ln_led s) (rew_asset C) (rew_acct C) w t true in
      Ok (st_racc (st_led s L) (delete w (ln_racc s)))
    else Ok s.

  (** ** Supplying *)
  (** [do_mint], 2074-2111 *)
  Definition do_mint (s : loans) (w : account) (a : asset) (amt : Z) : res loans :=
    let* _ := ensure (negb (amt =? 0)) "InvalidAmount" in
    let* _ := ensure_active s a in
    let* _ := under_supply_cap s a amt in
    let* s1 := accrue s a in
    let* s2 := upd_supply_index s1 a in
    let* s3 := dist_supplier s2 a w in
    let* r := exrate s3 a in
    let* s4 := update_earned s3 w a r in
    let* v := to_voucher amt r in
    let* _ := ensure (negb (v =? 0)) "InvalidExchangeRate" in
    let* L := transfer P (ln_led s4) a w (ln_acct C) amt false in
    let s5 := st_led s4 L in
    let d := dep_of s5 a w in
    let* v' := ok_or (checked_add (d_v d) v) "Overflow" in
    let s6 := put_dep s5 a w (mkDep v' (d_col d)) in
    let* t := ok_or (checked_add (m_supply (acc_of s6 a)) v) "Overflow" in
    Ok (put_acc s6 a (set_supply (acc_of s6 a) t)).

  (** [redeem_allowed], 1420-1462 *)
  Definition redeem_allowed (s : loans) (a : asset) (w : account) (v : Z) : res unit :=
    let d := dep_of s a w in
    let* _ := ensure (v <=? d_v d) "InsufficientDeposit" in
    let* r := exrate s a in
    let* x := to_underlying v r in
    let* _ := enough_cash s a x in
    if negb (d_col d) then Ok tt else
    let* mk := get_market s a in
    let* val := asset_value s a (p_mul_ceil (mk_cf mk) x) in
    ensure_liquidity s w val (is_lf s a).
  (** [do_redeem_voucher], 1465-1502: new state and the underlying amount paid *)
  Definition redeem_voucher (s : loans) (w : account) (a : asset) (v : Z) : res (loans * Z) :=
    let* _ := redeem_allowed s a w v in
    let* s1 := upd_supply_index s a in
    let* s2 := dist_supplier s1 a w in
    let* r := exrate s2 a in
    let* x := to_underlying v r in
    let d := dep_of s2 a w in
    let* v' := ok_or (checked_sub (d_v d) v) "Underflow" in
    let s3 := put_dep_or_remove s2 a w (mkDep v' (d_col d)) in
    let* t := ok_or (checked_sub (m_supply (acc_of s3 a)) v) "Underflow" in
    let s4 := put_acc s3 a (set_supply (acc_of s3 a) t) in
    let* L := transfer P (ln_led s4) a (ln_acct C) w x false in
    Ok (st_led s4 L, x).
  (** [do_redeem], 2209-2226 *)
  Definition do_redeem (s : loans) (w : account) (a : asset) (amt : Z) : res (loans * Z) :=
    let* _ := ensure_active s a in
    let* s1 := accrue s a in
    let* r := exrate s1 a in
    let* s2 := update_earned s1 w a r in
    let* v := to_voucher amt r in
    redeem_voucher s2 w a v.
  (** body of [redeem_all] (875-889) and [force_redeem_all] (1169-1184) *)
  Definition do_redeem_all (s : loans) (w : account) (a : asset) : res (loans * Z) :=
    let* _ := ensure_active s a in
    let* s1 := accrue s a in
    let* r := exrate s1 a in
    let* s2 := update_earned s1 w a r in
    redeem_voucher s2 w a (d_v (dep_of s2 a w)).

  (** ** Borrowing *)
  (** [borrow_allowed], 1505-1520 *)
  Definition borrow_allowed (s : loans) (a : asset) (w : account) (amt : Z) : res unit :=
    let* _ := under_borrow_cap s a amt in
    let* _ := enough_cash s a amt in
    let* val := asset_value s a amt in
    ensure_liquidity s w val (a =? lf_asset C).
  (** [do_borrow], 2113-2147 *)
  Definition do_borrow (s : loans) (w : account) (a : asset) (amt : Z) : res loans :=
    let* _ := ensure_active s a in
    let* s1 := accrue s a in
    let* _ := borrow_allowed s1 a w amt in
    let* s2 := upd_borrow_index s1 a in
    let* s3 := dist_borrower s2 a w in
    let* b := borrow_balance s3 w a in
    let* b' := ok_or (checked_add b amt) "Overflow" in
    let* t := ok_or (checked_add (m_borrows (acc_of s3 a)) amt) "Overflow" in
    let s4 := put_debt s3 a w (mkDebt b' (m_index (acc_of s3 a))) in
    let s5 := put_acc s4 a (set_borrows (acc_of s4 a) t) in
    let* L := transfer P (ln_led s5) a (ln_acct C) w amt false in
    Ok (st_led s5 L).
  (** [do_repay_borrow_with_amount], 1523-1557 *)
  Definition repay_with_amount (s : loans) (w : account) (a : asset) (b amt : Z) : res loans :=
    let* _ := ensure (amt <=? b) "TooMuchRepay" in
    let* s1 := upd_borrow_index s a in
    let* s2 := dist_borrower s1 a w in
    let* L := transfer P (ln_led s2) a w (ln_acct C) amt false in
    let s3 := st_led s2 L in
    let* b' := ok_or (checked_sub b amt) "Underflow" in
    let t := saturating_sub (m_borrows (acc_of s3 a)) amt in
    let s4 := put_debt s3 a w (mkDebt b' (m_index (acc_of s3 a))) in
    Ok (put_acc s4 a (set_borrows (acc_of s4 a) t)).
  (** [do_repay_borrow], 2196-2207 *)
  Definition do_repay (s : loans) (w : account) (a : asset) (amt : Z) : res loans :=
    let* _ := ensure_active s a in
    let* s1 := accrue s a in
    let* b := borrow_balance s1 w a in
    repay_with_amount s1 w a b amt.
  (** extrinsic [repay_borrow_all], 935-946 *)
  Definition repay_all (s : loans) (w : account) (a : asset) : res loans :=
    let* _ := ensure_active s a in
    let* s1 := accrue s a in
    let* b := borrow_balance s1 w a in
    do_repay s1 w a b.

  (** [do_collateral_asset], 2149-2194 *)
  Definition do_collateral (s : loans) (w : account) (a : asset) (enable : bool) : res loans :=
    let* _ := ensure_active s a in
    let* d := ok_or (ln_deps s !! (a, w)) "NoDeposit" in
    if enable then Ok (put_dep s a w (mkDep (d_v d) true)) else
    let* Co := total_collateral s w in
    let* cv := collateral_value s w a in
    let* B := total_borrowed s w in
    let* t := ok_or (checked_add B cv) "Overflow" in
    let* _ := ensure (t <=? Co) "InsufficientLiquidity" in
    Ok (put_dep s a w (mkDep (d_v d) false)).
  (** extrinsic [collateral_asset], 955-974 *)
  Definition collateral_asset (s : loans) (w : account) (a : asset) (enable : bool) : res loans :=
    let* _ := ensure_active s a in
    let* d := ok_or (ln_deps s !! (a, w)) "NoDeposit" in
    let* _ := ensure (negb (Bool.eqb (d_col d) enable)) "DuplicateOperation" in
    do_collateral s w a enable.

  (** ** Liquidation *)
  (** [liquidate_borrow_allowed], 1611-1663 *)
  Definition liquidate_allowed (s : loans) (w : account) (a : asset) (amt : Z) (mk : market) : res unit :=
    let* q := threshold_liquidity s w in
    let '(liq, short, lfl, _) := q in
    let* _ := ensure (negb ((short =? 0) && (lfl <=? liq))) "InsufficientShortfall" in
    let* b := borrow_balance s w a in
    let* bv := asset_value s a b in
    let* rv := asset_value s a amt in
    let* eff := (if a =? lf_asset C then
                   let* base := lf_base s w in Ok (if base <? bv then bv - base else 0)
                 else Ok bv) in
    ensure (negb (p_mul_ceil (mk_close mk) eff <? rv)) "TooMuchRepay".
  (** [liquidated_transfer], 1741-1860 *)
  Definition liquidated_transfer (s : loans) (liq w : account) (la ca : asset) (amt under : Z) (mk : market) : res loans :=
    let* s1 := upd_borrow_index s la in
    let* s2 := dist_borrower s1 la liq in
    let* L := transfer P (ln_led s2) la liq (ln_acct C) amt false in
    let s3 := st_led s2 L in
    let* b := borrow_balance s3 w la in
    let* b' := ok_or (checked_sub b amt) "Underflow" in
    let* t := ok_or (checked_sub (m_borrows (acc_of s3 la)) amt) "Underflow" in
    let s4 := put_debt s3 la w (mkDebt b' (m_index (acc_of s3 la))) in
    let s5 := put_acc s4 la (set_borrows (acc_of s4 la) t) in
    let* s6 := upd_supply_index s5 ca in
    let* s7 := dist_supplier s6 ca liq in
    let* s8 := dist_supplier s7 ca w in
    let* s9 := dist_supplier s8 ca (inc_acct C) in
    let* r := exrate s9 ca in
    let* k := to_voucher under r in
    let dw := dep_of s9 ca w in
    let* vw := ok_or (checked_sub (d_v dw) k) "Underflow" in
    let s10 := put_dep s9 ca w (mkDep vw (d_col dw)) in
    let* q := ok_or (f_checked_div k (mk_inc mk)) "Underflow" in
    let inc := p_mul_floor (mk_incres mk) q in
    let* share := raw_sub k inc in
    let dl := dep_of s10 ca liq in
    let* vl := ok_or (checked_add (d_v dl) share) "Overflow" in
    let s11 := put_dep s10 ca liq (mkDep vl (d_col dl)) in
    let di := dep_of s11 ca (inc_acct C) in
    let* vi := ok_or (checked_add (d_v di) inc) "Overflow" in
    Ok (put_dep s11 ca (inc_acct C) (mkDep vi (d_col di))).
  (** [do_liquidate_borrow], 1675-1738 *)
  Definition do_liquidate (s : loans) (liq w : account) (la : asset) (amt : Z) (ca : asset) : res loans :=
    let* _ := ensure_active s la in
    let* _ := ensure_active s ca in
    let* mk := get_market s la in
    let* _ := ensure (negb (w =? liq)) "LiquidatorIsBorrower" in
    let* _ := liquidate_allowed s w la amt mk in
    let d := dep_of s ca w in
    let* _ := ensure (d_col d) "DepositsAreNotCollateral" in
    let* r := exrate s ca in
    let* x := to_underlying (d_v d) r in
    let* cv := asset_value s ca x in
    let* rv := asset_value s la amt in
    let* lv := ok_or (f_checked_mul rv (mk_inc mk)) "Overflow" in
    let* _ := ensure (negb (cv <? lv)) "InsufficientCollateral" in
    let* cp := get_price s ca in
    let* under := ok_or (f_checked_div lv cp) "Underflow" in
    liquidated_transfer s liq w la ca amt under mk.
  (** extrinsic [liquidate_borrow], 985-1008 *)
  Definition liquidate (s : loans) (liq w : account) (la : asset) (amt : Z) (ca : asset) : res loans :=
    let* _ := ensure (negb (is_lf s ca) && negb (is_aux ca)) "CollateralReserved" in
    let* s1 := accrue s la in
    let* s2 := accrue s1 ca in
    do_liquidate s2 liq w la amt ca.

  (** ** Voucher tokens (ptoken.rs) *)
  (** [reducible_asset], ptoken 195-235 (uses the stored [ExchangeRate], line 232) *)
  Definition reducible_asset (s : loans) (pt : asset) (w : account) : res Z :=
    let* u := underlying s pt in
    let d := dep_of s u w in
    if negb (d_col d) then Ok (d_v d) else
    let* mk := ensure_active s u in
    let* cv := collateral_value s w u in
    let* q := account_liquidity s w in
    let '(liq, _, _, _) := q in
    if cv <=? liq then Ok (d_v d) else
    let* p := get_price s u in
    let* x := ok_or (f_checked_div liq (f_of_permill (mk_cf mk))) "Overflow" in
    let* y := ok_or (f_checked_div x p) "Underflow" in
    to_voucher y (m_ex (acc_of s u)).
  (** [reducible_balance(...)], ptoken 53-59: [unwrap_or_default] (a panic would propagate) *)
  Definition reducible_pt (s : loans) (pt : asset) (w : account) : res Z :=
    match reducible_asset s pt w with Ok x => Ok x | Err _ => Ok 0 | Panic => Panic end.
  (** [Transfer::transfer] and [do_transfer_ptokens], ptoken 134-193 (rewards are updated under the ptoken id) *)
  Definition transfer_pt (s : loans) (pt : asset) (src dst : account) (amt : Z) : res loans :=
    let* red := reducible_pt s pt src in
    let* _ := ensure (amt <=? red) "InsufficientCollateral" in
    let* s1 := upd_supply_index s pt in
    let* s2 := dist_supplier s1 pt src in
    let* s3 := dist_supplier s2 pt dst in
    let* u := underlying s3 pt in
    let d := dep_of s3 u src in
    let* v := ok_or (checked_sub (d_v d) amt) "Underflow" in
    let s4 := put_dep_or_remove s3 u src (mkDep v (d_col d)) in
    let e := dep_of s4 u dst in
    let* v' := ok_or (checked_add (d_v e) amt) "Overflow" in
    Ok (put_dep s4 u dst (mkDep v' (d_col e))).

  (** ** Governance and reserves *)
  (** [ensure_ptoken], 1914-1928 *)
  Definition ensure_ptoken (s : loans) (pt : asset) : res unit :=
    let* _ := ensure (bool_decide (ln_under s !! pt = None)) "InvalidPtokenId" in
    ensure (bool_decide (ln_mkts s !! pt = None)) "InvalidPtokenId".
  (** extrinsic [add_market], 488-542 *)
  Definition add_market (s : loans) (o : origin) (a : asset) (mk : market) : res loans :=
    let* _ := ensure (ln_update C o) "BadOrigin" in
    let* _ := ensure (bool_decide (ln_mkts s !! a = None)) "MarketAlreadyExists" in
    let* _ := ensure (bool_decide (mk_state mk = Pending)) "NewMarketMustHavePendingState" in
    let* _ := ensure (check_model (mk_model mk)) "InvalidRateModelParam" in
    let* _ := ensure ((0 <=? mk_cf mk) && (mk_cf mk <? PMILL)) "InvalidFactor" in
    let* _ := ensure ((mk_lt mk <? PMILL) && (mk_cf mk <=? mk_lt mk)) "InvalidFactor" in
    let* _ := ensure ((0 <? mk_rf mk) && (mk_rf mk <? PMILL)) "InvalidFactor" in
    let* _ := ensure ((0 <? mk_incres mk) && (mk_incres mk <? PMILL)) "InvalidFactor" in
    let* _ := ensure (0 <? mk_scap mk) "InvalidSupplyCap" in
    let* _ := ensure_ptoken s (mk_pt mk) in
    let s1 := st_under (st_mkts s (<[a := mk]> (ln_mkts s))) (<[mk_pt mk := a]> (ln_under s)) in
    let m := acc_of s1 a in
    Ok (put_acc s1 a (mkMacc (m_last m) (m_supply m) (m_borrows m) (m_res m) FDIV MIN_EXRATE (m_util m) (m_brate m) (m_srate m))).
  Definition put_market (s : loans) (a : asset) (mk : market) : loans := st_mkts s (<[a := mk]> (ln_mkts s)).
  Definition with_state (m : market) (x : mkt_state) := mkMarket (mk_cf m) (mk_lt m) (mk_rf m) (mk_close m) (mk_inc m) (mk_incres m) (mk_model m) x (mk_scap m) (mk_bcap m) (mk_pt m).
  Definition with_model (m : market) (x : rate_model) := mkMarket (mk_cf m) (mk_lt m) (mk_rf m) (mk_close m) (mk_inc m) (mk_incres m) x (mk_state m) (mk_scap m) (mk_bcap m) (mk_pt m).
  (** extrinsic [activate_market], 552-566 *)
  Definition activate_market (s : loans) (o : origin) (a : asset) : res loans :=
    let* _ := ensure (ln_update C o) "BadOrigin" in
    let* mk := get_market s a in
    Ok (put_market s a (with_state mk Active)).
  (** extrinsic [update_rate_model], 576-590 *)
  Definition update_rate_model (s : loans) (o : origin) (a : asset) (x : rate_model) : res loans :=
    let* _ := ensure (ln_update C o) "BadOrigin" in
    let* _ := ensure (check_model x) "InvalidRateModelParam" in
    let* mk := get_market s a in
    Ok (put_market s a (with_model mk x)).
  (** extrinsic [update_market], 603-663 *)
  Definition update_market (s : loans) (o : origin) (a : asset) (cf lt rf close incres inc scap bcap : option Z) : res loans :=
    let* _ := ensure (ln_update C o) "BadOrigin" in
    let* m := get_market s a in
    let cf' := default (mk_cf m) cf in
    let lt' := default (mk_lt m) lt in
    let rf' := default (mk_rf m) rf in
    let scap' := default (mk_scap m) scap in
    let* _ := ensure ((0 <=? cf') && (cf' <? PMILL)) "InvalidFactor" in
    let* _ := ensure ((cf' <=? lt') && (lt' <? PMILL)) "InvalidFactor" in
    let* _ := ensure ((0 <? rf') && (rf' <? PMILL)) "InvalidFactor" in
    let* _ := ensure (0 <? scap') "InvalidSupplyCap" in
    Ok (put_market s a (mkMarket cf' lt' rf' (default (mk_close m) close) (default (mk_inc m) inc) (default (mk_incres m) incres)
                                 (mk_model m) (mk_state m) scap' (default (mk_bcap m) bcap) (mk_pt m))).
  (** extrinsic [force_update_market], 673-697 *)
  Definition force_update_market (s : loans) (o : origin) (a : asset) (mk : market) : res loans :=
    let* _ := ensure (ln_update C o) "BadOrigin" in
    let* _ := ensure (check_model (mk_model mk)) "InvalidRateModelParam" in
    let* _ := match ln_under s !! mk_pt mk with Some u => ensure (u =? a) "InvalidPtokenId" | None => Ok tt end in
    let* _ := get_market s a in
    Ok (put_market (st_under s (<[mk_pt mk := a]> (ln_under s))) a mk).
  (** extrinsic [add_reward], 705-720 *)
  Definition add_reward (s : loans) (w : account) (amt : Z) : res loans :=
    let* _ := ensure (negb (amt =? 0)) "InvalidAmount" in
    let* L := transfer P (ln_led s) (rew_asset C) w (rew_acct C) amt true in Ok (st_led s L).
  (** extrinsic [withdraw_missing_reward], 731-747 *)
  Definition withdraw_missing (s : loans) (o : origin) (target : account) (amt : Z) : res loans :=
    let* _ := ensure (ln_update C o) "BadOrigin" in
    let* _ := ensure (negb (amt =? 0)) "InvalidAmount" in
    let* L := transfer P (ln_led s) (rew_asset C) (rew_acct C) target amt true in Ok (st_led s L).
  (** extrinsic [update_market_reward_speed], 758-795 *)
  Definition update_speed (s : loans) (o : origin) (a : asset) (ss bs : option Z) : res loans :=
    let* _ := ensure (ln_update C o) "BadOrigin" in
    let* _ := ensure_active s a in
    let cs := r_ss (rew_of s a) in
    let cb := r_bs (rew_of s a) in
    let ss' := default cs ss in
    let bs' := default cb bs in
    let* s1 := (if ss' =? cs then Ok s else
                  let* t := upd_supply_index s a in
                  let r := rew_of t a in
                  Ok (put_rew t a (mkMrew ss' (r_bs r) (r_si r) (r_sb r) (r_bi r) (r_bb r)))) in
    (if bs' =? cb then Ok s1 else
       let* t := upd_borrow_index s1 a in
       let r := rew_of t a in
       Ok (put_rew t a (mkMrew (r_ss r) bs' (r_si r) (r_sb r) (r_bi r) (r_bb r)))).
  (** extrinsic [claim_reward], 801-811 (over all markets) *)
  Fixpoint collect_all (s : loans) (w : account) (l : list Z) : res loans :=
    match l with [] => Ok s | a :: l' => let* s1 := collect_reward s a w in collect_all s1 w l' end.
  Definition claim_reward (s : loans) (w : account) : res loans :=
    let* s1 := collect_all s w (map fst (map_to_list (ln_mkts s))) in pay_reward s1 w.
  (** extrinsic [claim_reward_for_market], 819-830 *)
  Definition claim_reward_for (s : loans) (w : account) (a : asset) : res loans :=
    let* s1 := collect_reward s a w in pay_reward s1 w.
  (** extrinsic [redeem], 857-867; [force_redeem], 1149-1160 *)
  Definition redeem (s : loans) (w : account) (a : asset) (amt : Z) : res (loans * Z) :=
    let* _ := ensure (negb (amt =? 0)) "InvalidAmount" in do_redeem s w a amt.
  Definition force_redeem (s : loans) (o : origin) (w : account) (a : asset) (amt : Z) : res (loans * Z) :=
    let* _ := ensure (ln_update C o) "BadOrigin" in redeem s w a amt.
  Definition force_redeem_all (s : loans) (o : origin) (w : account) (a : asset) : res (loans * Z) :=
    let* _ := ensure (ln_update C o) "BadOrigin" in do_redeem_all s w a.
  (** extrinsic [add_reserves], 1020-1045 *)
  Definition add_reserves (s : loans) (o : origin) (payer : account) (a : asset) (amt : Z) : res loans :=
    let* _ := ensure (ln_reserve C o) "BadOrigin" in
    let* _ := ensure_active s a in
    let* L := transfer P (ln_led s) a payer (ln_acct C) amt false in
    let* t := ok_or (checked_add (m_res (acc_of s a)) amt) "Overflow" in
    Ok (put_acc (st_led s L) a (set_reserves (acc_of s a) t)).
  (** extrinsic [reduce_reserves], 1057-1091 *)
  Definition reduce_reserves (s : loans) (o : origin) (receiver : account) (a : asset) (amt : Z) : res loans :=
    let* _ := ensure (ln_reserve C o) "BadOrigin" in
    let* _ := ensure_active s a in
    let* _ := ensure (amt <=? m_res (acc_of s a)) "InsufficientReserves" in
    let* t := ok_or (checked_sub (m_res (acc_of s a)) amt) "Underflow" in
    let* L := transfer P (ln_led s) a (ln_acct C) receiver amt false in
    Ok (put_acc (st_led s L) a (set_reserves (acc_of s a) t)).
  (** extrinsic [reduce_incentive_reserves], 1100-1121 (no interest accrual) *)
  Definition reduce_incentive (s : loans) (o : origin) (receiver : account) (a : asset) (amt : Z) : res loans :=
    let* _ := ensure (ln_reserve C o) "BadOrigin" in
    let* _ := ensure (negb (amt =? 0)) "InvalidAmount" in
    let* _ := ensure_active s a in
    let* r := exrate s a in
    let* v := to_voucher amt r in
    let*' (s1, x) := redeem_voucher s (inc_acct C) a v in
    let* L := transfer P (ln_led s1) a (inc_acct C) receiver x false in
    Ok (st_led s1 L).
  (** extrinsic [update_liquidation_free_collateral], 1129-1139 *)
  Definition update_free (s : loans) (o : origin) (l : list Z) : res loans :=
    let* _ := ensure (ln_update C o) "BadOrigin" in Ok (st_free s l).

  (** ** Transactions: the calls of the pallet (extrinsics and the [Loans]/[Transfer] trait entry points used by other
      pallets), plus the environment: token transfers, oracle updates and the passing of time. *)
  Inductive loans_call :=
  | LAddMarket (o : origin) (a : asset) (mk : market)
  | LActivate (o : origin) (a : asset)
  | LRateModel (o : origin) (a : asset) (x : rate_model)
  | LUpdate (o : origin) (a : asset) (cf lt rf close incres inc scap bcap : option Z)
  | LForceUpdate (o : origin) (a : asset) (mk : market)
  | LAddReward (w : account) (amt : Z)
  | LWithdrawMissing (o : origin) (target : account) (amt : Z)
  | LSpeed (o : origin) (a : asset) (ss bs : option Z)
  | LClaim (w : account)
  | LClaimFor (w : account) (a : asset)
  | LMint (w : account) (a : asset) (amt : Z)
  | LRedeem (w : account) (a : asset) (amt : Z)
  | LDoRedeem (w : account) (a : asset) (amt : Z)
  | LRedeemAll (w : account) (a : asset)
  | LBorrow (w : account) (a : asset) (amt : Z)
  | LRepay (w : account) (a : asset) (amt : Z)
  | LRepayAll (w : account) (a : asset)
  | LCollateral (w : account) (a : asset) (enable : bool)
  | LDoCollateral (w : account) (a : asset) (enable : bool)
  | LLiquidate (liq w : account) (la : asset) (amt : Z) (ca : asset)
  | LTransferPt (pt : asset) (src dst : account) (amt : Z)
  | LAddReserves (o : origin) (payer : account) (a : asset) (amt : Z)
  | LReduceReserves (o : origin) (receiver : account) (a : asset) (amt : Z)
  | LReduceIncentive (o : origin) (receiver : account) (a : asset) (amt : Z)
  | LFree (o : origin) (l : list Z)
  | LForceRedeem (o : origin) (w : account) (a : asset) (amt : Z)
  | LForceRedeemAll (o : origin) (w : account) (a : asset)
  | LGetBorrow (w : account) (a : asset).

  Definition fst_res (r : res (loans * Z)) : res loans := let* p := r in Ok p.1.
  Definition loans_exec (s : loans) (c : loans_call) : res loans :=
    match c with
    | LAddMarket o a mk => add_market s o a mk
    | LActivate o a => activate_market s o a
    | LRateModel o a x => update_rate_model s o a x
    | LUpdate o a cf lt rf close incres inc scap bcap => update_market s o a cf lt rf close incres inc scap bcap
    | LForceUpdate o a mk => force_update_market s o a mk
    | LAddReward w amt => add_reward s w amt
    | LWithdrawMissing o t amt => withdraw_missing s o t amt
    | LSpeed o a ss bs => update_speed s o a ss bs
    | LClaim w => claim_reward s w
    | LClaimFor w a => claim_reward_for s w a
    | LMint w a amt => do_mint s w a amt
    | LRedeem w a amt => fst_res (redeem s w a amt)
    | LDoRedeem w a amt => fst_res (do_redeem s w a amt)
    | LRedeemAll w a => fst_res (do_redeem_all s w a)
    | LBorrow w a amt => do_borrow s w a amt
    | LRepay w a amt => do_repay s w a amt
    | LRepayAll w a => repay_all s w a
    | LCollateral w a e => collateral_asset s w a e
    | LDoCollateral w a e => do_collateral s w a e
    | LLiquidate liq w la amt ca => liquidate s liq w la amt ca
    | LTransferPt pt src dst amt => transfer_pt s pt src dst amt
    | LAddReserves o p a amt => add_reserves s o p a amt
    | LReduceReserves o r a amt => reduce_reserves s o r a amt
    | LReduceIncentive o r a amt => reduce_incentive s o r a amt
    | LFree o l => update_free s o l
    | LForceRedeem o w a amt => fst_res (force_redeem s o w a amt)
    | LForceRedeemAll o w a => fst_res (force_redeem_all s o w a)
    (* [LoansPositionDataProvider::get_current_borrow_balance], 2279-2285, accrues interest *)
    | LGetBorrow w a => let* s1 := accrue s a in let* _ := borrow_balance s1 w a in Ok s1
    end.
  (** every call is [#[transactional]] (or runs inside one): an error leaves the state unchanged; a panic aborts the block *)
  Definition loans_apply (s : loans) (c : loans_call) : loans :=
    match loans_exec s c with Ok s' => s' | _ => s end.
End loans_sec.
