(** * FarmSpec: vocabulary for the farming properties. *)
From Verif Require Import Base MapSum Ledger AmmModel StreamSpec FarmModel.

(** ** Principal *)
(** sum of a user's cooling-down amounts *)
Definition locked (q : fpos) : Z := lsum fst (ps_locks q).
(** total of [f] over the positions of pool [k] *)
Definition pool_sum (s : farm) (k : Z * Z * Z) (f : fpos -> Z) : Z :=
  msum (fun kw q => if bool_decide (kw.1 = k) then f q else 0) (fposns s).
(** principal owed in asset [a]: deposits and locked amounts over all pools that stake [a] *)
Definition principal (s : farm) (a : Z) : Z :=
  msum (fun kw q => if bool_decide (kw.1.1.1 = a) then ps_dep q + locked q else 0) (fposns s).

(** ** Rewards *)
(** the accumulator at block [now], without overflow checks: stored + floor(blocks * rate * 10^12 / total) *)
Definition rps_at (p : fpool) (now : Z) : Z :=
  if fp_total p =? 0 then fp_rps p
  else fp_rps p + Z.max 0 (Z.min now (fp_finish p) - fp_last p) * fp_rate p * SHARE / fp_total p.
(** what the user could claim from pool [p] at block [now] *)
Definition claimable (p : fpool) (q : fpos) (now : Z) : Z :=
  ps_reward q + ps_dep q * (rps_at p now - ps_paid q) / SHARE.
Definition user_claimable (s : farm) (k : Z * Z * Z) (w : Z) : Z :=
  match fpools s !! k with Some p => claimable p (pos_get s k w) (f_now s) | None => 0 end.
(** sum over all users of the claimable amounts of pool [k] *)
Definition total_claimable (s : farm) (k : Z * Z * Z) : Z :=
  match fpools s !! k with Some p => pool_sum s k (fun q => claimable p q (f_now s)) | None => 0 end.

(** event sums *)
Definition ev_dispatched (k : Z * Z * Z) (e : farm_event) : Z :=
  match e with ERewardAdded k' amt => if bool_decide (k' = k) then amt else 0 | _ => 0 end.
Definition ev_claimed (k : Z * Z * Z) (e : farm_event) : Z :=
  match e with ERewardPaid _ k' amt => if bool_decide (k' = k) then amt else 0 | _ => 0 end.
Definition dispatched (s : farm) (k : Z * Z * Z) : Z := lsum (ev_dispatched k) (f_log s).
Definition claimed (s : farm) (k : Z * Z * Z) : Z := lsum (ev_claimed k) (f_log s).
(** rewards dispatched and not yet claimed, over all pools rewarding asset [a] *)
Definition reward_liability (s : farm) (a : Z) : Z :=
  msum (fun k _ => if bool_decide (k.1.2 = a) then dispatched s k - claimed s k else 0) (fpools s).

Definition user_of (C : farm_cfg) (w : Z) : Prop := forall a, w <> pool_acct C a.

(** callers and payers are not pool accounts; amounts are u128, durations u32 *)
Definition farm_op_ok (C : farm_cfg) (o : farm_op) : Prop :=
  match o with
  | FCreate _ _ _ lock cool => 0 <= lock /\ 0 <= cool
  | FStatus _ _ _ | FReset _ _ => True
  | FCool _ _ cool => 0 <= cool
  | FDeposit w _ amt | FWithdraw w _ amt => user_of C w /\ 0 <= amt <= U128MAX
  | FRedeem w _ | FClaim w _ => user_of C w
  | FDispatch _ _ payer amt d => user_of C payer /\ 0 <= amt <= U128MAX /\ 0 <= d
  | FBlock _ => True
  | FTransfer _ from _ amt => user_of C from /\ 0 <= amt
  | FMint _ _ _ => True
  | FBurn _ w _ => user_of C w
  end.

Inductive farm_reachable (C : farm_cfg) (P : policy) : farm -> Prop :=
| farm_reach_init L now : ledger_wf L -> (forall a, iss L a <= U128MAX) -> 0 <= now -> farm_reachable C P (farm_init L now)
| farm_reach_step s o : farm_reachable C P s -> farm_op_ok C o -> farm_reachable C P (farm_exec C P s o).

(** a lock item (amount, block of the withdrawal) whose age has reached the pool's cool down duration *)
Definition cooled (p : fpool) (now : Z) (it : Z * Z) : bool := it.2 + fp_cool p <=? now.
Definition cooled_total (p : fpool) (now : Z) (l : list (Z * Z)) : Z := lsum (fun it => if cooled p now it then it.1 else 0) l.
