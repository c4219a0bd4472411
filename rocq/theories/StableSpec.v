(** * StableSpec: vocabulary for stating the StableSwap properties. *)
From Verif Require Import Base MapSum Ledger AmmModel AmmSpec StableModel.

(** total reserves of asset [a] over all pools *)
Definition ss_total (s : ss) (a : asset) : Z := msum (fun k p => reserve k p a) (ss_pools s).

Definition ss_solvent (C : ss_cfg) (s : ss) : Prop :=
  forall a, ss_total s a <= bal (ss_led s) a (ss_acct C).

(** runtime constants are sane: fees are Permill, MinimumLiquidity > 0 (1000), the amplification coefficient is a
    u8, the pallet account is not the lock account *)
Definition ss_cfg_ok (C : ss_cfg) : Prop :=
  0 <= ss_lp_fee C <= PMILL /\ 0 <= ss_pfee C <= PMILL /\ 0 < ss_min_liq C <= U128MAX /\ 0 <= ss_amp C <= 255 /\
  ss_acct C <> ss_lock C.

Definition ss_is_lp (s : ss) (a : asset) : Prop := exists k p, ss_pools s !! k = Some p /\ p_lp p = a.

(** accounts that sign transactions *)
Definition ss_user (C : ss_cfg) (w : account) : Prop := w <> ss_acct C /\ w <> ss_lock C.

(** what can happen: amounts are u128, callers are users; outside movements start at users, and nobody else mints
    or burns LP tokens of pools *)
Definition ss_op_ok (C : ss_cfg) (s : ss) (o : ss_op) : Prop :=
  match o with
  | SAdd who _ d m => ss_user C who /\ u128_ok d.1 /\ u128_ok d.2
  | SRemove who _ l => ss_user C who /\ u128_ok l
  | SCreate _ _ amts r _ => ss_user C r /\ u128_ok amts.1 /\ u128_ok amts.2
  | SSwap now who _ amt => ss_user C who /\ u128_ok amt /\ 0 <= now
  | STransfer _ from _ amt => ss_user C from /\ u128_ok amt
  | SMint a _ amt => u128_ok amt /\ ~ ss_is_lp s a
  | SBurn a w amt => ss_user C w /\ u128_ok amt /\ ~ ss_is_lp s a
  end.

Inductive ss_reachable (C : ss_cfg) (P : policy) : ss -> Prop :=
| ss_reach_init L : ledger_wf L -> ss_reachable C P (ss_init L)
| ss_reach_step s o :
    ss_reachable C P s -> ss_op_ok C s o -> ss_reachable C P (ss_exec C P s o).

(** a history of operations started in [s] and its final state *)
Inductive ss_history (C : ss_cfg) (P : policy) : ss -> list ss_op -> ss -> Prop :=
| ss_hist_nil s : ss_history C P s [] s
| ss_hist_cons s o os s' :
    ss_op_ok C s o -> ss_history C P (ss_exec C P s o) os s' -> ss_history C P s (o :: os) s'.

(** the pool of two assets, if there is one *)
Definition ss_pool (s : ss) (a b : asset) : option pool := ss_pools s !! pair_key a b.

(** Curve's StableSwap invariant for two assets with amplification coefficient A,
      4·A·(x + y) + D = 4·A·D + D³ / (4·x·y),
    cleared of fractions: the value D of reserves x and y is the root of [curve_gap], which increases with D. *)
Definition curve_gap (A x y D : Z) : Z :=
  (16 * A * x * y * D + D * D * D) - (16 * A * x * y * (x + y) + 4 * x * y * D).

(** amounts sorted like the storage key of the pool of [a] and [b] (larger asset id first) *)
Definition sorted_amounts (a b : asset) (am : Z * Z) : Z * Z := if a <? b then (am.2, am.1) else am.
