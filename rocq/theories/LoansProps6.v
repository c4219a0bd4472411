(** * LoansProps6: accounts without debts can withdraw everything, collateral or not (C159, second half). *)
From Verif Require Import Base MapSum Ledger AmmModel AmmEx AmmProofs5 LoansModel LoansSpec LoansSpec2 LoansSpec3 LoansProofs LoansProofs2 LoansProofs3 LoansProofs4 LoansProofs5
  LoansProofs8 LoansProofs9 LoansProofs12 LoansProofs13 LoansProofs14 LoansProofs15 LoansProofs16 LoansProofs18 LoansProofs19 LoansProofs21 LoansProofs22 LoansProofs23 LoansProofs24 LoansProofs25 LoansProofs26 LoansEx LoansProps2 LoansProps4.

(** ** C159.  A supplier who owes nothing can withdraw any part of its vouchers, also from collateral, when the market holds the tokens, if interest can be
    accrued, all active markets are priced, the exchange rates of its collaterals are valid and the numbers fit. *)
Theorem C159_debtless_withdraw_partial C P s s1 a w mk v amt (all : bool) :
  cfg_ok C -> loans_reachable C P s -> lenient P -> ln_mkts s !! a = Some mk -> mk_state mk = Active -> accrue C s a = Ok s1 ->
  (forall b, debt_now s1 b w = 0) -> quotable C s1 w -> collateral_worth C s1 w <= U128MAX -> rewards_fit s1 a w -> earnings_fit s1 a w (rate_of C s1 a) ->
  0 < supply_of s1 a -> backing C s1 a < supply_of s1 a -> bal (ln_led s) a (ln_acct C) + borrows_of s1 a <= U128MAX ->
  v = (if all then vouchers s a w else amt * 10 ^ 18 / rate_of C s1 a) -> v <= vouchers s a w ->
  v * rate_of C s1 a / 10 ^ 18 + reserves_of s1 a <= bal (ln_led s) a (ln_acct C) ->
  0 < amt -> exists s', loans_exec C P s (if all then LRedeemAll w a else LRedeem w a amt) = Ok s'.
Proof.
  intros HC R LP Hm HA E HD HQ HC1 HF HE HS HB HM Hv Hvv Hcash Ha. rewrite <- FDIV_val in Hv, Hcash.
  pose proof (reachable_linv C P s R) as Hi. pose proof (accrue_linv C _ _ _ Hi E) as Hi1.
  pose proof (reachable_rinv C P s HC R) as RR. pose proof (accrue_rinv C _ _ _ Hi RR E) as R1. pose proof (accrue_grow C _ _ _ (proj1 Hi) E) as HG. pose proof (floor_grow C _ _ HG (reachable_floor C P s HC R)) as HFl.
  pose proof (accrue_mk C s a s1 a mk Hm E) as Hm1. destruct (li_mkt s1 (proj1 Hi1) a mk Hm1) as [_ HX].
  assert (HB0 : forall b, 0 <= backing C s1 b) by (intros b; pose proof (reachable_backing C P s b HC R); destruct (HG b) as [_ ?]; lia).
  assert (ln_led s1 = ln_led s /\ (forall b x, dep_of s1 b x = dep_of s b x)) as [EL ED] by (apply accrue_mkts in E as [X ->]; auto).
  assert (vouchers s1 a w = vouchers s a w) as EV by (unfold vouchers; rewrite ED; reflexivity). rewrite <- EL in HM, Hcash. rewrite <- EV in Hv, Hvv.
  destruct (debtless C s1 w HD) as [HW HL].
  destruct (exrate_prog C s1 a Hi1 HFl HS (conj (HB0 a) HB) HM) as [Er Hr].
  assert (FDIV <= U128MAX) as HU by (apply Z.leb_le; vm_compute; reflexivity). pose proof FDIV_pos as HFD.
  destruct (earned_prog s1 w a (rate_of C s1 a) Hi1 HE ltac:(lia)) as [s2 E2]. assert (core_eq s1 s2) as Hcore by (eapply update_earned_core; eauto).
  assert (exists X, s2 = st_earn s1 X) as [X HX2]. { unfold update_earned in E2. cbn zeta in E2. bstep E2 t Et. injection E2 as <-. eauto. }
  assert (0 <= v) as Hv0. { rewrite Hv. destruct all; [apply (li_dep s1 (proj1 Hi1))|]. apply Z.div_pos; [nia|lia]. }
  pose proof (free_allowed C s1 w a v mk Hi1 HFl HB0 Hm1 HA HS HB HM (conj Hv0 Hvv) Hcash HQ HC1 HW HL) as HAl.
  destruct (voucher_prog2 C P s2 w a v) as (s' & x & Hx); try (rewrite HX2; first [exact HF|exact HX|exact HS|exact HM|exact Hcash|exact HFl|exact HAl]); auto.
  - eapply linv_core; eauto.
  - rewrite HX2. eapply rinv_same; [|exact R1]. repeat split.
  - rewrite HX2. change (debt_now s1 a w <= U128MAX). rewrite HD. lia.
  - rewrite HX2. change (0 <= backing C s1 a < supply_of s1 a). split; [apply HB0|exact HB].
  - rewrite HX2. change (0 <= v <= vouchers s1 a w). lia.
  - exists s'. destruct all; cbn [loans_exec]; unfold fst_res.
    + unfold do_redeem_all. rewrite (active_prog s a mk Hm HA). cbn [rbind]. rewrite E. cbn [rbind]. rewrite Er. cbn [rbind]. rewrite E2. cbn [rbind].
      assert (d_v (dep_of s2 a w) = v) as -> by (rewrite HX2, Hv; reflexivity). rewrite Hx. reflexivity.
    + unfold redeem. replace (amt =? 0) with false by lia. cbn [negb ensure rbind]. unfold do_redeem. rewrite (active_prog s a mk Hm HA). cbn [rbind]. rewrite E. cbn [rbind]. rewrite Er. cbn [rbind]. rewrite E2. cbn [rbind].
      unfold to_voucher, f_checked_div. replace (rate_of C s1 a =? 0) with false by lia. rewrite <- Hv. pose proof (li_dep s1 (proj1 Hi1) a w). rewrite chk_ok by lia. cbn [ok_or rbind]. rewrite Hx. reflexivity.
Qed.
Print Assumptions C159_debtless_withdraw_partial.
(** account 101 of the running example has no debt at first; its vouchers of 20 and of the liquidation-free 30 are collateral *)
Definition can_leave_b (s : loans) (a : asset) : bool :=
  is_collateral s a 101 && okb (accrue lxC s a) (fun s1 => quotable_b s1 101 && (collateral_worth lxC s1 101 <=? U128MAX) && (debt_now s1 10 101 =? 0) && (debt_now s1 20 101 =? 0) && (debt_now s1 30 101 =? 0) &&
    rewards_fit_b s1 a 101 && earnings_fit_b s1 a 101 (rate_of lxC s1 a) && (0 <? supply_of s1 a) && (backing lxC s1 a <? supply_of s1 a) &&
    (vouchers s a 101 * rate_of lxC s1 a / 10 ^ 18 + reserves_of s1 a <=? bal (ln_led s) a 1)).
Example C159_debtless_example :
  can_leave_b lx1 20 = true /\ can_leave_b lx1 30 = true /\ 0 < vouchers lx1 20 101 /\
  okb (loans_exec lxC allow_all lx1 (LRedeemAll 101 20)) (fun s' => vouchers s' 20 101 =? 0) = true /\
  okb (loans_exec lxC allow_all lx1 (LRedeemAll 101 30)) (fun s' => vouchers s' 30 101 =? 0) = true.
Proof. split; [vm_compute; reflexivity|]. split; [vm_compute; reflexivity|]. split; [apply Z.ltb_lt; vm_compute; reflexivity|]. split; vm_compute; reflexivity. Qed.
