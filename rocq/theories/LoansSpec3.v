(** * LoansSpec3: when the value of all positions of an account can be computed. *)
From Verif Require Import Base MapSum Ledger AmmModel LoansModel LoansSpec.

(** every active market is priced (also the ones the account does not use, as the code demands), the exchange rates of its collaterals are valid, the
    liquidation-free currency is priced, and the numbers fit *)
Definition quotable (C : loans_cfg) (s : loans) (w : account) : Prop :=
  (forall a mk, ln_mkts s !! a = Some mk -> mk_state mk = Active ->
     0 < price_of s a /\ debt_now s a w <= U128MAX /\
     (is_collateral s a w = true -> vouchers s a w = 0 \/ (backing C s a < supply_of s a /\ bal (ln_led s) a (ln_acct C) + borrows_of s a <= U128MAX))) /\
  0 < price_of s (lf_asset C) /\ debt_now s (lf_asset C) w <= U128MAX /\ lf_debt_worth C s w <= U128MAX /\ borrow_worth s w <= U128MAX.


(** the part of a debt the close factor applies to: debt in the liquidation-free currency is first set off against the liquidation-free collateral *)
Definition liquidatable_worth (C : loans_cfg) (s : loans) (la : asset) (w : account) : Z :=
  let v := value_of s la (debt_now s la w) in
  if la =? lf_asset C then Z.max 0 (v - lf_collateral_worth C s w) else v.
