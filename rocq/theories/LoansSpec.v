(** * LoansSpec: the vocabulary of the lending properties (C26-C36 and later), independent of the model's helpers. *)
From Verif Require Import Base MapSum Ledger AmmModel LoansModel.

(** what a market's storage says *)
Definition supply_of (s : loans) (a : asset) : Z := m_supply (acc_of s a).
Definition borrows_of (s : loans) (a : asset) : Z := m_borrows (acc_of s a).
Definition reserves_of (s : loans) (a : asset) : Z := m_res (acc_of s a).
Definition index_of (s : loans) (a : asset) : Z := m_index (acc_of s a).
(** vouchers held by an account in a market, and by all accounts together *)
Definition vouchers (s : loans) (a : asset) (w : account) : Z := d_v (dep_of s a w).
Definition is_collateral (s : loans) (a : asset) (w : account) : bool := d_col (dep_of s a w).
Definition voucher_sum (s : loans) (a : asset) : Z :=
  msum (fun k d => if bool_decide (k.1 = a) then d_v d else 0) (ln_deps s).

(** the assets backing the vouchers of a market: cash + borrows - reserves *)
Definition backing (C : loans_cfg) (s : loans) (a : asset) : Z :=
  bal (ln_led s) a (ln_acct C) + borrows_of s a - reserves_of s a.

(** ** Configuration and calls that can occur *)
Definition is_u128 (x : Z) : Prop := 0 <= x <= U128MAX.
Definition is_permill (x : Z) : Prop := 0 <= x <= PMILL.
(** the pallet's three accounts are different (they are hashes of different strings) *)
Definition cfg_ok (C : loans_cfg) : Prop :=
  ln_acct C <> inc_acct C /\ ln_acct C <> rew_acct C /\ inc_acct C <> rew_acct C.
Definition model_typed (m : rate_model) : Prop :=
  match m with
  | Jump b j f ju => is_u128 b /\ is_u128 j /\ is_u128 f /\ is_permill ju
  | Curve b => is_u128 b
  end.
Definition market_typed (m : market) : Prop :=
  is_permill (mk_cf m) /\ is_permill (mk_lt m) /\ is_permill (mk_rf m) /\ is_permill (mk_close m) /\
  is_permill (mk_incres m) /\ is_u128 (mk_inc m) /\ is_u128 (mk_scap m) /\ is_u128 (mk_bcap m) /\
  model_typed (mk_model m).
Definition opt_ok (Q : Z -> Prop) (o : option Z) : Prop := match o with Some x => Q x | None => True end.

(** arguments have the types of the API (u128 amounts, Permill factors) and the pallet's own account, which has no key,
    is not the signer of a call nor named by governance as the payer of [add_reserves] *)
Definition call_ok (C : loans_cfg) (c : loans_call) : Prop :=
  match c with
  | LAddMarket o a mk | LForceUpdate o a mk => market_typed mk
  | LActivate o a => True
  | LRateModel o a x => model_typed x
  | LUpdate o a cf lt rf close incres inc scap bcap =>
      opt_ok is_permill cf /\ opt_ok is_permill lt /\ opt_ok is_permill rf /\ opt_ok is_permill close /\
      opt_ok is_permill incres /\ opt_ok is_u128 inc /\ opt_ok is_u128 scap /\ opt_ok is_u128 bcap
  | LAddReward w amt => is_u128 amt /\ w <> ln_acct C
  | LWithdrawMissing o t amt => is_u128 amt
  | LSpeed o a ss bs => opt_ok is_u128 ss /\ opt_ok is_u128 bs
  | LClaim w | LClaimFor w _ => w <> ln_acct C
  | LMint w a amt | LRedeem w a amt | LDoRedeem w a amt | LBorrow w a amt | LRepay w a amt => is_u128 amt /\ w <> ln_acct C
  | LRedeemAll w a | LRepayAll w a | LCollateral w a _ | LDoCollateral w a _ => w <> ln_acct C
  | LLiquidate liq w la amt ca => is_u128 amt /\ liq <> ln_acct C
  | LTransferPt pt src dst amt => is_u128 amt /\ src <> ln_acct C
  | LAddReserves o p a amt => is_u128 amt /\ p <> ln_acct C
  | LReduceReserves o r a amt | LReduceIncentive o r a amt => is_u128 amt
  | LFree o l => True
  | LForceRedeem o w a amt => is_u128 amt
  | LForceRedeemAll o w a => True
  | LGetBorrow w a => True
  end.

(** ** Histories: calls of the pallet interleaved with arbitrary token movements that take nothing out of the pallet
    account (only the pallet can), arbitrary oracle updates and the passing of time. *)
Inductive loans_step (C : loans_cfg) (P : policy) (s : loans) : loans -> Prop :=
| step_call c s' : call_ok C c -> loans_exec C P s c = Ok s' -> loans_step C P s s'
| step_tokens L : ledger_wf L -> (forall a, bal (ln_led s) a (ln_acct C) <= bal L a (ln_acct C)) ->
    loans_step C P s (st_led s L)
| step_oracle p : (forall a x, p !! a = Some x -> is_u128 x) -> loans_step C P s (st_price s p)
| step_clock t b : ln_time s <= t <= U64MAX -> ln_block s <= b <= U32MAX -> loans_step C P s (st_clock s t b).
Inductive loans_steps (C : loans_cfg) (P : policy) : loans -> loans -> Prop :=
| steps_refl s : loans_steps C P s s
| steps_more s1 s2 s3 : loans_steps C P s1 s2 -> loans_step C P s2 s3 -> loans_steps C P s1 s3.

(** the pallet before any market has been added; tokens, prices and clocks are arbitrary *)
Definition loans_genesis (s : loans) : Prop :=
  ln_mkts s = ∅ /\ ln_under s = ∅ /\ ln_acc s = ∅ /\ ln_rew s = ∅ /\ ln_deps s = ∅ /\ ln_debts s = ∅ /\
  ln_earn s = ∅ /\ ln_six s = ∅ /\ ln_bix s = ∅ /\ ln_racc s = ∅ /\ ln_free s = [] /\
  ledger_wf (ln_led s) /\ (forall a x, ln_price s !! a = Some x -> is_u128 x) /\
  0 <= ln_time s <= U64MAX /\ 0 <= ln_block s <= U32MAX.
Definition loans_reachable (C : loans_cfg) (P : policy) (s : loans) : Prop :=
  exists s0, loans_genesis s0 /\ loans_steps C P s0 s.

(** the exchange rate: underlying per voucher, in units of 10^-18, rounded down *)
Definition rate_of (C : loans_cfg) (s : loans) (a : asset) : Z := backing C s a * FDIV / supply_of s a.

(** ** Who may change what *)
(** the origin of a governance call and of a reserve call *)
Definition governance_origin (c : loans_call) : option origin :=
  match c with
  | LAddMarket o _ _ | LActivate o _ | LRateModel o _ _ | LUpdate o _ _ _ _ _ _ _ _ _ | LForceUpdate o _ _
  | LWithdrawMissing o _ _ | LSpeed o _ _ _ | LFree o _ | LForceRedeem o _ _ _ | LForceRedeemAll o _ _ => Some o
  | _ => None
  end.
Definition reserve_origin (c : loans_call) : option origin :=
  match c with LAddReserves o _ _ _ | LReduceReserves o _ _ _ | LReduceIncentive o _ _ _ => Some o | _ => None end.
(** the calls that change markets, voucher ids or the liquidation-free list *)
Definition changes_params (c : loans_call) : Prop :=
  match c with
  | LAddMarket _ _ _ | LActivate _ _ | LRateModel _ _ _ | LUpdate _ _ _ _ _ _ _ _ _ _ | LForceUpdate _ _ _ | LFree _ _ => True
  | _ => False
  end.
(** the calls that may change the debt of [w] in market [a] *)
Definition changes_debt (c : loans_call) (a : asset) (w : account) : Prop :=
  match c with
  | LBorrow w' a' _ | LRepay w' a' _ | LRepayAll w' a' => w' = w /\ a' = a
  | LLiquidate _ w' la _ _ => w' = w /\ la = a
  | _ => False
  end.
(** the calls that may lower the voucher balance of [w] in market [a] *)
Definition lowers_vouchers (C : loans_cfg) (c : loans_call) (a : asset) (w : account) : Prop :=
  match c with
  | LRedeem w' a' _ | LDoRedeem w' a' _ | LRedeemAll w' a' | LForceRedeem _ w' a' _ | LForceRedeemAll _ w' a' => w' = w /\ a' = a
  | LLiquidate _ w' _ _ ca => w' = w /\ ca = a
  | LTransferPt _ src _ _ => src = w
  | LReduceIncentive _ _ a' _ => w = inc_acct C /\ a' = a
  | _ => False
  end.

(** ** What an account owns and owes, in money (oracle prices, 10^-18 units), independent of the pallet's code *)
Definition price_of (s : loans) (a : asset) : Z := default 0 (ln_price s !! a).
Definition value_of (s : loans) (a : asset) (x : Z) : Z := price_of s a * x / FDIV.
(** what [w] owes in market [a]: the principal scaled by the growth of the borrow index since the last update *)
Definition debt_now (s : loans) (a : asset) (w : account) : Z :=
  let d := debt_of s a w in if b_i d =? 0 then 0 else (index_of s a * FDIV / b_i d) * b_p d / FDIV.
(** underlying per voucher; 0.02 in a market without vouchers *)
Definition rate_now (C : loans_cfg) (s : loans) (a : asset) : Z := if supply_of s a =? 0 then MIN_EXRATE else rate_of C s a.
(** what the vouchers of [w] in market [a] count for as collateral, with the factor [f] of the market *)
Definition counts_for (C : loans_cfg) (f : market -> Z) (s : loans) (w : account) (a : asset) (mk : market) : Z :=
  if is_collateral s a w then value_of s a (p_mul_ceil (f mk) (rate_now C s a * vouchers s a w / FDIV)) else 0.
Definition over_active (s : loans) (g : asset -> market -> Z) : Z :=
  msum (fun a mk => if bool_decide (mk_state mk = Active) then g a mk else 0) (ln_mkts s).
Definition borrow_worth (s : loans) (w : account) : Z := over_active s (fun a _ => value_of s a (debt_now s a w)).
Definition collateral_worth (C : loans_cfg) (s : loans) (w : account) : Z := over_active s (counts_for C mk_cf s w).
Definition threshold_worth (C : loans_cfg) (s : loans) (w : account) : Z := over_active s (counts_for C mk_lt s w).
(** the part in collaterals that cannot be liquidated (reserved for debt in the liquidation-free asset), and that debt *)
Definition lf_only (s : loans) (g : asset -> market -> Z) (a : asset) (mk : market) : Z :=
  if bool_decide (a ∈ ln_free s) then g a mk else 0.
Definition lf_collateral_worth (C : loans_cfg) (s : loans) (w : account) : Z := over_active s (lf_only s (counts_for C mk_cf s w)).
Definition lf_threshold_worth (C : loans_cfg) (s : loans) (w : account) : Z := over_active s (lf_only s (counts_for C mk_lt s w)).
Definition lf_debt_worth (C : loans_cfg) (s : loans) (w : account) : Z := value_of s (lf_asset C) (debt_now s (lf_asset C) w).

(** ** Rewards: what [w] would still be credited for its vouchers in market [a] at the market's current reward index *)
Definition pending_supply_reward (s : loans) (a : asset) (w : account) : Z :=
  vouchers s a w * (r_si (rew_of s a) - six_of s a w) / RSCALE.
