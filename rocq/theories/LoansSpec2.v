(** * LoansSpec2: the vocabulary of the lending properties C157-C162 (withdrawal, repayment and rewards). *)
From Verif Require Import Base MapSum Ledger AmmModel LoansModel LoansSpec.

(** ** Markets whose exchange rate has reached 1: the assets behind the vouchers are worth at least one unit per voucher *)
Definition frozen (C : loans_cfg) (s : loans) (a : asset) : Prop := 0 < supply_of s a <= backing C s a.
(** and in which interest was last computed some time ago *)
Definition stuck (C : loans_cfg) (s : loans) (a : asset) : Prop := frozen C s a /\ 0 < m_last (acc_of s a) < ln_time s.
(** [w] has enabled deposited vouchers of such a market, which is active, as collateral *)
Definition locked (C : loans_cfg) (s : loans) (a : asset) (w : account) : Prop :=
  (exists mk, ln_mkts s !! a = Some mk /\ mk_state mk = Active) /\ frozen C s a /\
  exists d, ln_deps s !! (a, w) = Some d /\ d_col d = true /\ 0 < d_v d.
(** the calls whose outcome depends on the value of [w]'s collateral: borrowing, being liquidated, withdrawing or disabling collateral *)
Definition relies_on_collateral (s : loans) (c : loans_call) (w : account) : Prop :=
  match c with
  | LBorrow w' _ _ => w' = w
  | LLiquidate _ w' _ _ _ => w' = w
  | LCollateral w' _ e | LDoCollateral w' _ e => w' = w /\ e = false
  | LRedeem w' b _ | LDoRedeem w' b _ | LRedeemAll w' b | LForceRedeem _ w' b _ | LForceRedeemAll _ w' b => w' = w /\ is_collateral s b w = true
  | _ => False
  end.
(** the calls that create or redeem vouchers of a market *)
Definition moves_supply (c : loans_call) : option asset :=
  match c with
  | LMint _ a _ | LRedeem _ a _ | LDoRedeem _ a _ | LRedeemAll _ a | LForceRedeem _ _ a _ | LForceRedeemAll _ _ a | LReduceIncentive _ _ a _ => Some a
  | _ => None
  end.
(** the calls that supply to, redeem from, borrow from or repay to a market, or liquidate debt or collateral in it *)
Definition touches (c : loans_call) (a : asset) : Prop :=
  moves_supply c = Some a \/
  match c with
  | LBorrow _ b _ | LRepay _ b _ | LRepayAll _ b | LGetBorrow _ b => b = a
  | LLiquidate _ _ la _ ca => la = a \/ ca = a
  | _ => False
  end.

(** ** Rewards.  The reward index of the suppliers (borrowers) of a market at the current block: it has grown by the rewards
    of the blocks since the last update, divided by the vouchers (by the loans, expressed at index 1); indices are in units of 10^-12 *)
Definition supply_index_now (s : loans) (a : asset) : Z :=
  let r := rew_of s a in
  r_si r + (if (r_ss r =? 0) || (supply_of s a =? 0) then 0 else (ln_block s - r_sb r) * r_ss r * 10 ^ 12 / supply_of s a).
(** an amount owed, expressed at index 1 *)
Definition at_index_one (s : loans) (a : asset) (x : Z) : Z := (10 ^ 36 / index_of s a) * x / 10 ^ 18.
Definition borrow_index_now (s : loans) (a : asset) : Z :=
  let r := rew_of s a in
  let base := at_index_one s a (borrows_of s a) in
  r_bi r + (if (r_bs r =? 0) || (base =? 0) then 0 else (ln_block s - r_bb r) * r_bs r * 10 ^ 12 / base).
(** what [w] has earned in market [a] and has not been credited for *)
Definition earned_in (s : loans) (a : asset) (w : account) : Z :=
  vouchers s a w * (supply_index_now s a - six_of s a w) / 10 ^ 12 +
  at_index_one s a (debt_now s a w) * (borrow_index_now s a - bix_of s a w) / 10 ^ 12.
(** what [w] can claim: credited rewards and those earned in one market, or in all *)
Definition claimable_in (s : loans) (a : asset) (w : account) : Z := racc_of s w + earned_in s a w.
Definition claimable (s : loans) (w : account) : Z := racc_of s w + msum (fun a _ => earned_in s a w) (ln_mkts s).

(** ** Room for the numbers: a sufficient condition for interest to be computable (rates are below 2 per year) *)
Definition interest_time (s : loans) (a : asset) : Z := if m_last (acc_of s a) =? 0 then 0 else ln_time s - m_last (acc_of s a).
Definition headroom (C : loans_cfg) (s : loans) (a : asset) : Prop :=
  let dt := interest_time s a in
  bal (ln_led s) a (ln_acct C) + borrows_of s a + 2 * borrows_of s a * dt <= U128MAX /\
  index_of s a + 2 * index_of s a * dt <= U128MAX /\
  (supply_of s a = 0 \/ backing C s a + 2 * borrows_of s a * dt / 31536000 < supply_of s a).
Definition usable_model (m : rate_model) : Prop := match m with Jump _ _ _ ju => 0 < ju | Curve _ => True end.
(** the reward counters of a market, and of [w], are in the range of u128 *)
Definition rewards_fit (s : loans) (a : asset) (w : account) : Prop :=
  supply_index_now s a <= U128MAX /\ borrow_index_now s a <= U128MAX /\ claimable_in s a w <= U128MAX.
(** so is the record of what [w] has earned by supplying, at exchange rate [r] *)
Definition earnings_fit (s : loans) (a : asset) (w : account) (r : Z) : Prop :=
  let e := earn_of s a w in
  0 <= e_rate e /\ 0 <= e_total e <= U128MAX /\ e_total e + (r - e_rate e) * vouchers s a w / 10 ^ 18 <= U128MAX.

(** ** Histories with the rewards the markets emit (their speeds, for suppliers and for borrowers, for every block) and the rewards paid to claimers *)
Definition emission (s : loans) (blocks : Z) : Z := msum (fun _ r => (r_ss r + r_bs r) * blocks) (ln_rew s).
Definition claimer (c : loans_call) : option account := match c with LClaim w | LClaimFor w _ => Some w | _ => None end.
Definition paid_by (C : loans_cfg) (c : loans_call) (s s' : loans) : Z :=
  match claimer c with
  | Some _ => bal (ln_led s) (rew_asset C) (rew_acct C) - bal (ln_led s') (rew_asset C) (rew_acct C)
  | None => 0
  end.
(** no market has ever paid rewards to borrowers: neither a speed nor an index is set *)
Definition no_borrow_rewards (s : loans) : Prop := forall a, r_bs (rew_of s a) = 0 /\ r_bi (rew_of s a) = 0.
(** vouchers are not transferred, no rewards for borrowers are set, the reward account does not claim *)
Definition supplier_rewards_only (C : loans_cfg) (c : loans_call) : Prop :=
  match c with
  | LTransferPt _ _ _ _ => False
  | LSpeed _ _ _ bs => bs = None \/ bs = Some 0
  | LClaim w | LClaimFor w _ => w <> rew_acct C
  | _ => True
  end.
(** the same with rewards for borrowers *)
Definition no_voucher_transfers (C : loans_cfg) (c : loans_call) : Prop :=
  match c with
  | LTransferPt _ _ _ _ => False
  | LClaim w | LClaimFor w _ => w <> rew_acct C
  | _ => True
  end.
Inductive reward_history (C : loans_cfg) (P : policy) (Q : loans_call -> Prop) : loans -> Z -> Z -> loans -> Prop :=
| rh_start s : reward_history C P Q s 0 0 s
| rh_call s0 e p s c s' : reward_history C P Q s0 e p s -> call_ok C c -> Q c -> loans_exec C P s c = Ok s' ->
    reward_history C P Q s0 e (p + paid_by C c s s') s'
| rh_tokens s0 e p s L : reward_history C P Q s0 e p s -> ledger_wf L -> (forall a, bal (ln_led s) a (ln_acct C) <= bal L a (ln_acct C)) ->
    reward_history C P Q s0 e p (st_led s L)
| rh_oracle s0 e p s x : reward_history C P Q s0 e p s -> (forall a y, x !! a = Some y -> is_u128 y) -> reward_history C P Q s0 e p (st_price s x)
| rh_clock s0 e p s t b : reward_history C P Q s0 e p s -> ln_time s <= t <= U64MAX -> ln_block s <= b <= U32MAX ->
    reward_history C P Q s0 (e + emission s (b - ln_block s)) p (st_clock s t b).
(** rewards credited but not yet claimed *)
Definition credited (s : loans) : Z := msum (fun _ x => x) (ln_racc s).
