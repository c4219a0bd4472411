(** * LoansProps5: supplying and borrowing go through (C176, C177). *)
From Verif Require Import Base MapSum Ledger AmmModel AmmEx AmmProofs5 LoansModel LoansSpec LoansSpec2 LoansSpec3 LoansProofs LoansProofs2 LoansProofs3 LoansProofs4 LoansProofs5
  LoansProofs8 LoansProofs9 LoansProofs12 LoansProofs13 LoansProofs14 LoansProofs15 LoansProofs16 LoansProofs18 LoansProofs19 LoansProofs21 LoansProofs22 LoansProofs23 LoansProofs24 LoansProofs25 LoansEx LoansProps2 LoansProps4.

(** ** C176.  Whoever holds the tokens can supply them to an active market up to its cap, if interest can be accrued, the tokens in the market are worth
    less than one per voucher, at least one voucher results and the numbers fit. *)
Theorem C176_supply_goes_through_partial C P s s1 w a amt mk :
  cfg_ok C -> loans_reachable C P s -> lenient P -> ln_mkts s !! a = Some mk -> mk_state mk = Active -> accrue C s a = Ok s1 ->
  0 < amt <= bal (ln_led s) a w -> bal (ln_led s) a (ln_acct C) + amt <= mk_scap mk ->
  (supply_of s1 a = 0 \/ backing C s1 a < supply_of s1 a) -> bal (ln_led s) a (ln_acct C) + borrows_of s1 a <= U128MAX ->
  0 < amt * 10 ^ 18 / rate_now C s1 a -> supply_of s1 a + amt * 10 ^ 18 / rate_now C s1 a <= U128MAX ->
  debt_now s1 a w <= U128MAX -> rewards_fit s1 a w -> earnings_fit s1 a w (rate_now C s1 a) ->
  exists s', loans_exec C P s (LMint w a amt) = Ok s'.
Proof.
  intros HC R LP Hm HA E Ha Hcap HS HM Hv Hvs HD HF HE. rewrite <- FDIV_val in Hv, Hvs. cbn [loans_exec].
  pose proof (reachable_linv C P s R) as Hi. pose proof (reachable_rinv C P s HC R) as RR. pose proof (accrue_linv C _ _ _ Hi E) as Hi1.
  pose proof (accrue_grow C _ _ _ (proj1 Hi) E) as HG. pose proof (floor_grow C _ _ HG (reachable_floor C P s HC R)) as HFl. pose proof (reachable_backing C P s a HC R) as B0. destruct (HG a) as [_ B1].
  destruct (li_mkt s (proj1 Hi) a mk Hm) as [(_ & _ & _ & _ & _ & _ & (_ & Hsc) & _) _].
  assert (EL : ln_led s1 = ln_led s) by (apply accrue_mkts in E as [X ->]; reflexivity).
  destruct (li_acc s1 (proj1 Hi1) a) as ((S0 & _) & _).
  assert (Er : exrate C s1 a = Ok (rate_now C s1 a) /\ 0 < rate_now C s1 a <= U128MAX).
  { unfold rate_now in *. destruct (supply_of s1 a =? 0) eqn:Es.
    - unfold exrate, calc_exrate. fold (supply_of s1 a). rewrite Es. split; [reflexivity|]. split; [apply Z.ltb_lt|apply Z.leb_le]; vm_compute; reflexivity.
    - destruct (exrate_prog C s1 a Hi1 HFl ltac:(lia) ltac:(lia) ltac:(rewrite EL; lia)) as [Er Hr]. split; [exact Er|]. assert (FDIV <= U128MAX) by (apply Z.leb_le; vm_compute; reflexivity). lia. }
  destruct Er as [Er Hr]. exact (mint_prog C P s s1 w a amt mk (rate_now C s1 a) Hi RR LP Hm HA E Ha Hcap Hsc HD HF Er Hr HE Hv Hvs).
Qed.
Print Assumptions C176_supply_goes_through_partial.
(** an active market with a price in which nobody can ever supply again, whatever happens: somebody sent tokens to it *)
Theorem C176_refuted : exists C P s a mk,
  cfg_ok C /\ loans_reachable C P s /\ lenient P /\ ln_mkts s !! a = Some mk /\ mk_state mk = Active /\ 0 < price_of s a /\ bal (ln_led s) a (ln_acct C) + 10 ^ 19 <= mk_scap mk /\
  (forall s' w amt s'', w <> ln_acct C -> 0 <= amt <= U128MAX -> loans_steps C P s s' -> loans_exec C P s' (LMint w a amt) <> Ok s'').
Proof.
  assert (H : someb (ln_mkts lx_unpay !! 20) (fun mk => bool_decide (mk_state mk = Active) && (bal (ln_led lx_unpay) 20 1 + 10 ^ 19 <=? mk_scap mk)) = true) by (vm_compute; reflexivity).
  apply someb_spec in H as (mk & Hm & HA). apply andb_prop in HA as [HA Hc]. apply bool_decide_eq_true in HA. apply Z.leb_le in Hc.
  exists lxC, allow_all, lx_unpay, 20, mk. split; [exact lxC_ok|]. split; [apply lx_unpay_reach|]. split; [apply allow_all_lenient|]. split; [exact Hm|]. split; [exact HA|].
  split; [apply Z.ltb_lt; vm_compute; reflexivity|]. split; [exact Hc|]. apply stuck_unsuppliable; [exact lxC_ok|apply lx_unpay_reach|apply lx_unpay_stuck].
Qed.
Print Assumptions C176_refuted.
Example C176_example :
  okb (accrue lxC lx2 10) (fun s1 => (debt_now s1 10 102 =? 0) && rewards_fit_b s1 10 102 && earnings_fit_b s1 10 102 (rate_now lxC s1 10) &&
    (0 <? supply_of s1 10) && (backing lxC s1 10 <? supply_of s1 10) && (0 <? 50 * U * 10 ^ 18 / rate_now lxC s1 10) && (supply_of s1 10 + 50 * U * 10 ^ 18 / rate_now lxC s1 10 <=? U128MAX)) = true /\
  okb (loans_exec lxC allow_all lx2 (LMint 102 10 (50 * U))) (fun s' => vouchers lx2 10 102 <? vouchers s' 10 102) = true.
Proof. split; vm_compute; reflexivity. Qed.

(** ** C177.  An account can borrow any amount that is in the market and within its cap, as long as its debts with the new one are covered by the collateral
    that is not reserved for the liquidation-free currency (or, for a loan in that currency, by either kind of collateral), if interest can be accrued, all active
    markets are priced, the exchange rates of its collaterals are valid and the numbers fit. *)
Theorem C177_borrow_goes_through_partial C P s s1 w a amt mk :
  cfg_ok C -> loans_reachable C P s -> lenient P -> ln_mkts s !! a = Some mk -> mk_state mk = Active -> accrue C s a = Ok s1 ->
  0 <= amt -> amt + reserves_of s1 a <= bal (ln_led s) a (ln_acct C) <= U128MAX -> borrows_of s1 a + amt <= mk_bcap mk -> 0 < price_of s a ->
  quotable C s1 w ->
  (let unused_free := Z.max 0 (lf_collateral_worth C s1 w - lf_debt_worth C s1 w) in
   a <> lf_asset C /\ borrow_worth s1 w + value_of s a amt <= collateral_worth C s1 w - unused_free \/
   a = lf_asset C /\ (borrow_worth s1 w + value_of s a amt <= collateral_worth C s1 w \/ lf_debt_worth C s1 w + value_of s a amt <= lf_collateral_worth C s1 w)) ->
  value_of s a amt <= U128MAX -> collateral_worth C s1 w <= U128MAX -> debt_now s1 a w + amt <= U128MAX -> rewards_fit s1 a w ->
  exists s', loans_exec C P s (LBorrow w a amt) = Ok s'.
Proof.
  intros HC R LP Hm HA E Ha Hcash Hcap Hp Hq Hl HV HC1 HD HF. cbn zeta in Hl. cbn [loans_exec].
  pose proof (reachable_linv C P s R) as Hi. pose proof (reachable_rinv C P s HC R) as RR. pose proof (accrue_linv C _ _ _ Hi E) as Hi1.
  destruct (li_mkt s (proj1 Hi) a mk Hm) as [(_ & _ & _ & _ & _ & _ & _ & (_ & Hbc) & _) _].
  pose proof (accrue_grow C _ _ _ (proj1 Hi) E) as HG. pose proof (floor_grow C _ _ HG (reachable_floor C P s HC R)) as HFl.
  assert (HB : forall b, 0 <= backing C s1 b) by (intros b; pose proof (reachable_backing C P s b HC R); destruct (HG b) as [_ ?]; lia).
  destruct (liquidity_answers C s1 w Hi1 HFl HB Hq HC1) as [q Hq'].
  refine (borrow_prog C P s s1 w a amt mk q Hi RR LP Hm HA E Ha Hcash Hcap Hbc HD HF Hp Hq' HC1 HV (borrow_worth_nn s1 w Hi1) _). destruct Hl as [[N Hl]|[N Hl]]; [left; split; [exact N|lia]|right; split; [exact N|lia]].
Qed.
Print Assumptions C177_borrow_goes_through_partial.
(** a market nobody uses that has no price: an account with collateral, without debts, cannot borrow anything *)
Theorem C177_refuted : exists C P s w a mk,
  cfg_ok C /\ loans_reachable C P s /\ lenient P /\ ln_mkts s !! a = Some mk /\ mk_state mk = Active /\ 0 < price_of s a /\ borrow_worth s w = 0 /\ 500 * U <= collateral_worth C s w /\
  500 * U <= bal (ln_led s) a (ln_acct C) - reserves_of s a /\ (forall amt s', loans_exec C P s (LBorrow w a amt) <> Ok s').
Proof.
  assert (H : someb (ln_mkts lx_noprice !! 10) (fun mk => bool_decide (mk_state mk = Active)) = true) by (vm_compute; reflexivity).
  apply someb_spec in H as (mk & Hm & HA). apply bool_decide_eq_true in HA.
  exists lxC, allow_all, lx_noprice, 101, 10, mk. split; [exact lxC_ok|]. split; [apply lx_noprice_reach|]. split; [apply allow_all_lenient|]. split; [exact Hm|]. split; [exact HA|].
  split; [apply Z.ltb_lt; vm_compute; reflexivity|]. split; [vm_compute; reflexivity|]. split; [apply Z.leb_le; vm_compute; reflexivity|]. split; [apply Z.leb_le; vm_compute; reflexivity|].
  assert (K : someb (ln_mkts lx_noprice !! 40) (fun mk => bool_decide (mk_state mk = Active) && bool_decide (ln_price lx_noprice !! 40 = None)) = true) by (vm_compute; reflexivity).
  apply someb_spec in K as (mb & Kb & KA). apply andb_prop in KA as [KA KP]. apply bool_decide_eq_true in KA. apply bool_decide_eq_true in KP.
  exact (unpriced_noborrow lxC allow_all lx_noprice 40 mb 101 10 lx_noprice_reach Kb KA KP).
Qed.
Print Assumptions C177_refuted.
Definition can_borrow_b (s : loans) (a : asset) (amt : Z) : bool :=
  okb (accrue lxC s a) (fun s1 => quotable_b s1 101 &&
    (borrow_worth s1 101 + value_of s a amt <=? collateral_worth lxC s1 101 - Z.max 0 (lf_collateral_worth lxC s1 101 - lf_debt_worth lxC s1 101)) &&
    (amt + reserves_of s1 a <=? bal (ln_led s) a 1) && (borrows_of s1 a + amt <=? 10 ^ 20) && (debt_now s1 a 101 + amt <=? U128MAX) && rewards_fit_b s1 a 101).
(** account 101, collateral in 20 and in the liquidation-free 30: a first loan of 20, and a further one after a year with a debt in 10 *)
Example C177_example :
  lf_asset lxC <> 20 /\ (0 < lf_collateral_worth lxC lx1 101) /\ can_borrow_b lx1 20 (200 * U) = true /\ 0 < borrow_worth lx2 101 /\ can_borrow_b lx2 20 (20 * U) = true /\
  okb (loans_exec lxC allow_all lx1 (LBorrow 101 20 (200 * U))) (fun s' => debt_now s' 20 101 =? 200 * U) = true /\
  okb (loans_exec lxC allow_all lx2 (LBorrow 101 20 (20 * U))) (fun s' => debt_now s' 20 101 =? 20 * U) = true /\
  is_ok (loans_exec lxC allow_all lx1 (LBorrow 101 20 (251 * U))) = false.
Proof. split; [discriminate|]. split; [apply Z.ltb_lt; vm_compute; reflexivity|]. split; [vm_compute; reflexivity|]. split; [apply Z.ltb_lt; vm_compute; reflexivity|]. repeat split; vm_compute; reflexivity. Qed.
