(** * LsSpec: the vocabulary of the liquid-staking properties, independent of the model's helpers. *)
From Verif Require Import Base MapSum Ledger AmmModel LoansModel LoansSpec LsModel.

(** ** Sums *)
Fixpoint zsum (l : list Z) : Z := match l with [] => 0 | x :: l' => x + zsum l' end.
Definition chunk_sum (l : list chunk) : Z := zsum (map c_v l).
(** the chunks whose era has come, and the others *)
Definition due (era : Z) (l : list chunk) : list chunk := List.filter (fun c => c_era c <=? era) l.
Definition not_due (era : Z) (l : list chunk) : list chunk := List.filter (fun c => negb (c_era c <=? era)) l.

(** ** What storage says *)
Definition pool_stake (s : lst) : Z := ra_tot (mp_s (ls_pool s)).
Definition pool_unstake (s : lst) : Z := ra_tot (mp_u (ls_pool s)).
Definition locked_stake (s : lst) : Z := ra_res (mp_s (ls_pool s)).
Definition locked_unstake (s : lst) : Z := ra_res (mp_u (ls_pool s)).
Definition queue_of (s : lst) (w : account) : list chunk := default [] (ls_unl s !! w).
Definition queue_total (s : lst) : Z := msum (fun _ l => chunk_sum l) (ls_unl s).
Definition unbonding_total (s : lst) : Z := msum (fun _ l => chunk_sum (sl_unl l)) (ls_leds s).
Definition active_total (s : lst) : Z := msum (fun _ l => sl_active l) (ls_leds s).
(** what pending requests have reserved in the matching pool *)
Definition req_stake (r : request) : Z :=
  match r with RBond _ x | RBondExtra _ x | RRebond _ x => x | _ => 0 end.
(** the derivative account a request is about *)
Definition req_idx (r : request) : Z :=
  match r with RBond i _ | RBondExtra i _ | RUnbond i _ | RRebond i _ | RWithdraw i _ | RNominate i _ => i end.
Definition req_unstake (r : request) : Z := match r with RUnbond _ x => x | _ => 0 end.

(** ** Well-formedness *)
Definition ra_ok (r : ramount) : Prop := 0 <= ra_res r /\ ra_res r <= ra_tot r /\ ra_tot r <= U128MAX.
Definition pool_ok (p : mpool) : Prop := ra_ok (mp_s p) /\ ra_ok (mp_u p).
Definition free_stake (p : mpool) : Z := ra_tot (mp_s p) - ra_res (mp_s p).
Definition free_unstake (p : mpool) : Z := ra_tot (mp_u p) - ra_res (mp_u p).
(** a staking ledger: the total is the active stake plus everything that is unlocking *)
Definition sled_ok (l : sled) : Prop :=
  sl_total l = sl_active l + chunk_sum (sl_unl l) /\ 0 <= sl_active l /\ sl_total l <= U128MAX /\
  Forall (fun c => 0 <= c_v c) (sl_unl l).

(** ** Configuration, calls and histories *)
Definition ls_cfg_ok (C : ls_cfg) : Prop :=
  lc_acct C <> ln_acct (lc_loans C) /\ lc_acct C <> lc_xcm C /\ lc_acct C <> lc_fee_rcv C /\
  ln_acct (lc_loans C) <> lc_xcm C /\ ln_acct (lc_loans C) <> lc_fee_rcv C /\
  lc_stk C <> lc_liq C /\ lc_stk C <> lc_col C /\ lc_liq C <> lc_col C /\ lc_relay C <> lc_liq C /\ lc_relay C <> lc_col C /\
  NoDup (lc_idx C) /\ is_u128 (lc_fees C) /\ is_u128 (lc_min_stake C) /\ is_u128 (lc_min_unstake C) /\ is_u128 (lc_mnb C) /\
  is_u128 (lc_loans_fee C) /\ is_u128 (lc_fast_fee C) /\ 0 <= lc_bonding C <= U32MAX /\ 0 <= lc_eralen C <= U32MAX /\
  0 <= lc_offset C <= U32MAX.
(** a user is neither the liquid-staking nor the lending pallet account (which have no keys) *)
Definition ls_user (C : ls_cfg) (w : account) : Prop := w <> lc_acct C /\ w <> ln_acct (lc_loans C).
Definition ls_call_ok (C : ls_cfg) (c : ls_call) : Prop :=
  match c with
  | KStake w x | KUnstake w x _ => ls_user C w /\ is_u128 x
  | KCancel w x => ls_user C w /\ is_u128 x
  | KReserveFactor _ x | KUnstakeReserveFactor _ x => is_permill x
  | KCap _ x | KBond _ _ x | KBondExtra _ _ x | KUnbond _ _ x | KRebond _ _ x | KReduceReserves _ _ x | KCommission _ x
  | KReduceUnstakeReserves _ _ x => is_u128 x
  | KXcmFee _ _ x _ => is_u128 x
  | KForceStart _ b => 0 <= b <= U32MAX
  | KForceEra _ e | KForceAdvance _ e | KSetEra _ e _ => 0 <= e <= U32MAX
  | KForceLedger _ _ l => sled_ok l
  | KWithdraw _ _ _ | KNominate _ _ _ | KNotify _ _ _ _ | KForceMatching _ | KSetLedger _ _ _ _
  | KClaim _ _ | KFastMatch _ _ | KInit | KFinal _ => True
  end.
(** ledgers proved to be on the relay chain are consistent *)
Definition relay_ok (E : ls_env) : Prop := forall r i l p, e_proof_led E r i l p = true -> sled_ok l.

(** One step: a call of the pallet allowed by [Q], or the environment: any step of the lending pallet, any token movement
    that takes nothing from the liquid-staking account and neither creates nor destroys liquid tokens, the relay-chain
    clock, other users of the XCM query counter. *)
Inductive ls_step (C : ls_cfg) (E : ls_env) (Q : lst -> ls_call -> Prop) (s : lst) : lst -> Prop :=
| ls_step_call c s' : ls_call_ok C c -> Q s c -> ls_exec C E s c = Ok s' -> ls_step C E Q s s'
| ls_step_env n : loans_step (lc_loans C) (e_pol E) (ls_ln s) n ->
    (forall a, bal (ls_led s) a (lc_acct C) <= bal (ln_led n) a (lc_acct C)) ->
    iss (ln_led n) (lc_liq C) = iss (ls_led s) (lc_liq C) -> ls_step C E Q s (st_ls_ln s n)
| ls_step_relay b : ls_rblock s <= b <= U32MAX -> ls_step C E Q s (st_ls_rblock s b)
| ls_step_qid q : ls_qid s <= q -> ls_step C E Q s (st_ls_qid s q).
Inductive ls_steps (C : ls_cfg) (E : ls_env) (Q : lst -> ls_call -> Prop) : lst -> lst -> Prop :=
| ls_refl s : ls_steps C E Q s s
| ls_more s1 s2 s3 : ls_steps C E Q s1 s2 -> ls_step C E Q s2 s3 -> ls_steps C E Q s1 s3.
Definition any_call : lst -> ls_call -> Prop := fun _ _ => True.

(** genesis: exchange rate and reserve factor are given, everything else is empty, no liquid token exists *)
Definition ls_genesis (C : ls_cfg) (s : lst) : Prop :=
  loans_genesis (ls_ln s) /\ iss (ls_led s) (lc_liq C) = 0 /\ is_u128 (ls_rate s) /\ is_permill (ls_rf s) /\
  ls_comm s = 0 /\ ls_res s = 0 /\ ls_urf s = 0 /\ ls_ures s = 0 /\ ls_pool s = mpool0 /\ ls_cap s = 0 /\
  ls_reqs s = ∅ /\ ls_fast s = ∅ /\ ls_era s = 0 /\ ls_start s = 0 /\ ls_unl s = ∅ /\ ls_leds s = ∅ /\ ls_upd s = ∅ /\
  ls_matched s = false /\ ls_vd s = None /\ 0 <= ls_qid s /\ 0 <= ls_rblock s <= U32MAX /\ ls_xfee s = ∅.
Definition ls_reachable (C : ls_cfg) (E : ls_env) (Q : lst -> ls_call -> Prop) (s : lst) : Prop :=
  exists s0, ls_genesis C s0 /\ ls_steps C E Q s0 s.

(** ** Restrictions on the calls of a history, for the properties that need them *)
(** a ledger set by governance does not lose unlocking funds *)
Definition led_kept (s : lst) (c : ls_call) : Prop :=
  match c with KForceLedger _ i l' => forall l, ls_leds s !! i = Some l -> chunk_sum (sl_unl l) <= chunk_sum (sl_unl l') | _ => True end.
(** governance does not lower the active stake of a ledger, a confirmed rebond does not exceed what is unlocking, and all
    stake with the new rewards fits the balance type *)
Definition value_kept (s : lst) (c : ls_call) : Prop :=
  match c with
  | KForceLedger _ i l' => forall l, ls_leds s !! i = Some l -> sl_active l <= sl_active l'
  | KSetLedger _ i l' _ => forall l, ls_leds s !! i = Some l -> active_total s + (sl_active l' - sl_active l) + pool_stake s <= U128MAX
  | KNotify _ _ q (Some true) => forall i x l, ls_reqs s !! q = Some (RRebond i x) -> ls_leds s !! i = Some l -> x <= chunk_sum (sl_unl l)
  | _ => True
  end.

(** ** When sending to the relay chain works *)
(** messages are accepted and fees may be burnt; the XCM account can pay for [n] messages *)
Definition xcm_open (E : ls_env) : Prop := (forall q, e_send E q = true) /\ (forall L a w v, allow_burn (e_pol E) L a w v = true).
Definition xcm_funded (C : ls_cfg) (s : lst) (n : Z) : Prop :=
  exists F, 0 <= F /\ (forall k x, ls_xfee s !! k = Some x -> 0 <= x <= F) /\ n * F <= bal (ls_led s) (lc_relay C) (lc_xcm C).

(** ** Who may do what *)
Definition ls_params (s : lst) := (ls_comm s, ls_rf s, ls_urf s, ls_cap s, ls_xfee s).
Definition ls_governance (c : ls_call) : option origin :=
  match c with
  | KReserveFactor o _ | KCap o _ | KForceStart o _ | KForceEra o _ | KForceAdvance o _ | KForceMatching o | KForceLedger o _ _
  | KReduceReserves o _ _ | KCommission o _ | KUnstakeReserveFactor o _ | KReduceUnstakeReserves o _ _ | KXcmFee o _ _ _ => Some o
  | KNotify false o _ _ => Some o
  | _ => None
  end.
Definition ls_relay_call (c : ls_call) : option origin :=
  match c with KBond o _ _ | KBondExtra o _ _ | KUnbond o _ _ | KRebond o _ _ => Some o | _ => None end.
Definition ls_agent_call (c : ls_call) : option origin :=
  match c with
  | KWithdraw o _ _ | KNominate o _ _ | KClaim o _ | KSetEra o _ _ | KSetLedger o _ _ _ | KFastMatch o _ => Some o
  | _ => None
  end.
(** the calls that touch the unstaking queue of [w], that can change the exchange rate, that change staking ledgers *)
Definition touches_queue (C : ls_cfg) (c : ls_call) (w : account) : Prop :=
  match c with
  | KUnstake v _ RelayChain => v = w
  | KUnstake _ _ Loans => w = ln_acct (lc_loans C)
  | KClaim _ v => v = w
  | _ => False
  end.
Definition ends_era (c : ls_call) : Prop := match c with KInit | KForceAdvance _ _ | KSetEra _ _ _ => True | _ => False end.
Definition sets_era (c : ls_call) : Prop := match c with KForceEra _ _ => True | _ => ends_era c end.
Definition sets_ledgers (c : ls_call) : Prop := match c with KNotify _ _ _ (Some true) | KSetLedger _ _ _ _ | KForceLedger _ _ _ => True | _ => False end.
(** the calls that touch the fast-unstake request of [w] *)
Definition touches_fast (c : ls_call) (w : account) : Prop :=
  match c with KUnstake v _ MatchingPool | KCancel v _ => v = w | KFastMatch _ l => w ∈ l | _ => False end.
