(** * AmmSpec: vocabulary for stating the AMM properties (independent of how the pallet computes). *)
From Verif Require Import Base MapSum Ledger AmmModel.

(** the storage key of the pool of two assets: larger id first *)
Definition pair_key (a b : asset) : Z * Z := (Z.max a b, Z.min a b).

(** reserve of asset [a] in the pool [p] stored under key [k] *)
Definition reserve (k : Z * Z) (p : pool) (a : asset) : Z :=
  (if bool_decide (a = k.1) then p_base p else 0) + (if bool_decide (a = k.2) then p_quote p else 0).

(** constant product *)
Definition kprod (p : pool) : Z := p_base p * p_quote p.

(** total reserves of asset [a] over all pools *)
Definition total_reserves (s : amm) (a : asset) : Z := msum (fun k p => reserve k p a) (pools s).

Definition amm_solvent (C : amm_cfg) (s : amm) : Prop :=
  forall a, total_reserves s a <= bal (led s) a (amm_acct C).

Definition reserves_nonneg (s : amm) : Prop :=
  forall k p, pools s !! k = Some p -> 0 <= p_base p /\ 0 <= p_quote p.

(** runtime constants are sane: LpFee is a Permill, MinimumLiquidity > 0 (1000 in every runtime),
    the pallet account is not the lock account *)
Definition cfg_ok (C : amm_cfg) : Prop :=
  0 <= lp_fee C <= PMILL /\ 0 < min_liq C <= U128MAX /\ amm_acct C <> lock_acct C.

Definition u128_ok (x : Z) : Prop := 0 <= x <= U128MAX.

(** [a] is the LP token of some pool *)
Definition is_lp (s : amm) (a : asset) : Prop := exists k p, pools s !! k = Some p /\ p_lp p = a.

(** accounts that sign transactions: neither the pallet account (derived from a PalletId, no key) nor the
    lock account of LP tokens *)
Definition user (C : amm_cfg) (w : account) : Prop := w <> amm_acct C /\ w <> lock_acct C.

(** what can happen: amounts are u128, callers are users, governance names a user as LP receiver of a new
    pool; outside movements start at users, and nobody else mints or burns LP tokens of pools *)
Definition amm_op_ok (C : amm_cfg) (s : amm) (o : amm_op) : Prop :=
  match o with
  | OAdd who _ d m => user C who /\ u128_ok d.1 /\ u128_ok d.2
  | ORemove who _ l => user C who /\ u128_ok l
  | OCreate _ _ amts r _ => user C r /\ u128_ok amts.1 /\ u128_ok amts.2
  | OSwap now who _ amt => user C who /\ u128_ok amt /\ 0 <= now
  | OFee _ fee => 0 <= fee <= PMILL
  | OReceiver _ _ => True
  | OTransfer _ from _ amt => user C from /\ u128_ok amt
  | OMint a _ amt => u128_ok amt /\ ~ is_lp s a
  | OBurn a w amt => user C w /\ u128_ok amt /\ ~ is_lp s a
  end.

(** states reachable by any history of such operations *)
Inductive amm_reachable (C : amm_cfg) (P : policy) : amm -> Prop :=
| amm_reach_init L : ledger_wf L -> amm_reachable C P (amm_init L)
| amm_reach_step s o :
    amm_reachable C P s -> amm_op_ok C s o -> amm_reachable C P (amm_exec C P s o).

(** a history of operations started in [s] (each allowed in the state it is applied to) and its final state *)
Inductive amm_history (C : amm_cfg) (P : policy) : amm -> list amm_op -> amm -> Prop :=
| amm_hist_nil s : amm_history C P s [] s
| amm_hist_cons s o os s' :
    amm_op_ok C s o -> amm_history C P (amm_exec C P s o) os s' -> amm_history C P s (o :: os) s'.
