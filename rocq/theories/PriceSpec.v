(** * PriceSpec: vocabulary of the price properties. *)
From Verif Require Import Base Ledger AmmModel PriceModel.

(** the answers of the AMM pallet replaced by those of AMM state [s] *)
Definition with_amm (E : pr_env) (s : amm) : pr_env :=
  mkPrEnv (pe_dec E) (pe_src E) (pe_liquid E) (pe_lrate E) (pe_yield E) (pe_isv E) (pe_vrate E) (pool_by_lp s) (iss (led s)).
(** the exchange rate of liquid staking replaced *)
Definition with_rate (E : pr_env) (r : Z) : pr_env :=
  mkPrEnv (pe_dec E) (pe_src E) (pe_liquid E) (Some r) (pe_yield E) (pe_isv E) (pe_vrate E) (pe_pool E) (pe_iss E).
(** an asset that is priced by the oracle alone *)
Definition ordinary (s : prices) (a : asset) : Prop :=
  is_ls_token a = false /\ is_vault_token a = false /\ is_lf_lp_token a = false /\ is_auxiliary_token a = false /\ pr_foreign s !! a = None.
(** [p <= p'] on answers: the second answer, if any, is not lower *)
Definition price_le (p p' : option (Z * Z)) : Prop :=
  match p, p' with Some x, Some y => x.1 <= y.1 | _, _ => True end.
(** decimals of an asset, such that its smallest unit is 10^-d *)
Definition decimals (E : pr_env) (a : asset) (d : Z) : Prop := pe_dec E a = Some d /\ 0 <= d /\ 10 ^ d <= U128MAX.
