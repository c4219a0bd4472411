(** * AdminSpec: vocabulary of C48 (who can change the parameters of the pallets). *)
From Verif Require Import Base MapSum Ledger AmmModel FarmModel LoansModel LoansSpec.

(** the part of a farming pool that only governance controls *)
Definition pool_params (p : fpool) := (fp_active p, fp_unlock p, fp_cool p, fp_dur p, fp_finish p, fp_rate p).
Definition params_of (s : farm) (k : Z * Z * Z) := pool_params <$> fpools s !! k.
(** the origin and pool of a governance operation on farming pools *)
Definition fop_origin (o : farm_op) : option (origin * (Z * Z * Z)) :=
  match o with
  | FCreate o a r l _ => Some (o, (a, r, l))
  | FStatus o k _ | FCool o k _ | FReset o k | FDispatch o k _ _ _ => Some (o, k)
  | _ => None
  end.
(** the governance-controlled part of the lending pallet: markets, voucher ids, liquidation-free collaterals *)
Definition loans_params (s : loans) := (ln_mkts s, ln_under s, ln_free s).
