(** * LoansProps: property theorems C26-C36 and C49-C52 (lending). *)
From Verif Require Import Base MapSum Ledger AmmModel AmmEx LoansModel LoansSpec LoansProofs LoansProofs2 LoansProofs3 LoansProofs4 LoansProofs5
  LoansProofs6 LoansProofs7 LoansProofs8 LoansProofs9 LoansProofs10 LoansProofs11 LoansProofs12 LoansEx.

Notation lxe := (loans_exec lxC allow_all).

(** ** C26.  Rates are in units of 10^-18, utilisations in units of 10^-6. *)
Theorem C26_jump_model base jump full ju :
  check_model (Jump base jump full ju) = true -> 0 <= base -> is_permill ju -> 0 < ju ->
  exists r : Z -> Z,
    (forall u, 0 <= u <= 10 ^ 6 -> get_borrow_rate (Jump base jump full ju) u = Some (r u)) /\
    (forall u u', 0 <= u -> u <= u' -> u' <= 10 ^ 6 -> r u <= r u') /\
    r 0 = base /\
    (forall u, 0 <= u <= 10 ^ 6 -> base <= r u <= full) /\
    (forall u, 0 <= u <= ju -> r u <= jump) /\
    (ju < 10 ^ 6 -> full - r (10 ^ 6) <= 1 + 10 ^ 6).
Proof.
  intros H1 H2 H3 H4. destruct (jump_props base jump full ju H1 H2 H3 H4) as (r & R1 & R2 & R3 & R4 & R5 & R6). rewrite PMILL_val in *.
  exists r. do 5 (split; [assumption|]). intros Hj. specialize (R6 Hj). destruct H3 as [_ H3]. rewrite PMILL_val in H3. nia.
Qed.
Print Assumptions C26_jump_model.
Theorem C26_curve_model base :
  check_model (Curve base) = true -> 0 <= base ->
  exists r : Z -> Z,
    (forall u, 0 <= u <= 10 ^ 6 -> get_borrow_rate (Curve base) u = Some (r u)) /\
    (forall u u', 0 <= u -> u <= u' -> u' <= 10 ^ 6 -> r u <= r u') /\
    r 0 = base /\ r (10 ^ 6) = base + 10 ^ 18 /\
    (forall u, 0 <= u <= 10 ^ 6 -> base <= r u <= base + 10 ^ 18).
Proof. rewrite <- FDIV_val, <- PMILL_val. exact (curve_props base). Qed.
Print Assumptions C26_curve_model.
Theorem C26_supply_rate_at_most_borrow_rate b u f :
  is_u128 b -> is_permill u -> is_permill f -> 0 <= get_supply_rate b u f <= b.
Proof. exact (supply_rate_le b u f). Qed.
Print Assumptions C26_supply_rate_at_most_borrow_rate.
Example C26_example :
  check_model lxJ = true /\ get_borrow_rate lxJ 0 = Some (2 * 10 ^ 16) /\ get_borrow_rate lxJ 400000 = Some (6 * 10 ^ 16) /\
  get_borrow_rate lxJ 800000 = Some (10 ^ 17) /\ get_borrow_rate lxJ 900000 = Some (21 * 10 ^ 16) /\ get_borrow_rate lxJ 1000000 = Some (32 * 10 ^ 16) /\
  check_model (Curve (2 * 10 ^ 16)) = true /\ get_borrow_rate (Curve (2 * 10 ^ 16)) 800000 = Some 154217728000000000.
Proof. vm_compute. auto 10. Qed.

(** ** C27.  A jump model with jump utilisation 0 is accepted but has no rate at utilisation 0, and the market
    that uses it cannot be used any more once it is idle for a block. *)
Theorem C27_rate_defined_partial m u : check_model m = true -> model_typed m -> is_permill u ->
  match m with Jump _ _ _ ju => 0 < ju | Curve _ => True end ->
  exists r, get_borrow_rate m u = Some r.
Proof.
  intros H1 H2 H3 H4. unfold is_permill in H3. destruct m as [b j f ju|b]; cbn in H2.
  - destruct H2 as ((Hb & _) & _ & _ & Hju). destruct (jump_props b j f ju H1 Hb Hju H4) as (r & R & _). eauto.
  - destruct (curve_props b H1 (proj1 H2)) as (r & R & _). eauto.
Qed.
Print Assumptions C27_rate_defined_partial.
Theorem C27_refuted : exists m, check_model m = true /\ model_typed m /\ get_borrow_rate m 0 = None.
Proof. exists (Jump (2 * 10 ^ 16) (10 ^ 17) (32 * 10 ^ 16) 0). split; [vm_compute; reflexivity|]. split; [lx_conj|vm_compute; reflexivity]. Qed.
Print Assumptions C27_refuted.
Theorem C27_refuted_market_bricked C s a mk base jump full :
  ln_mkts s !! a = Some mk -> mk_model mk = Jump base jump full 0 -> base <= jump -> is_u128 base -> is_u128 jump ->
  borrows_of s a = 0 -> 0 < m_last (acc_of s a) < ln_time s -> accrue C s a = Err "Overflow".
Proof. exact (zero_jump_bricks C s a mk base jump full). Qed.
Print Assumptions C27_refuted_market_bricked.
Example C27_example :
  loans_reachable lxC allow_all lx_ju /\ vouchers lx_ju 10 100 = 50000 * U /\
  lxe lx_ju (LMint 100 10 U) = Err "Overflow" /\ lxe lx_ju (LRedeem 100 10 U) = Err "Overflow" /\ lxe lx_ju (LRedeemAll 100 10) = Err "Overflow".
Proof. split; [apply lx_ju_reach|]. vm_compute. auto. Qed.

(** ** C28 *)
Theorem C28_accrual C P s a s1 :
  loans_reachable C P s -> accrue C s a = Ok s1 ->
  borrows_of s a <= borrows_of s1 a /\ reserves_of s a <= reserves_of s1 a /\
  reserves_of s1 a - reserves_of s a <= borrows_of s1 a - borrows_of s a /\
  index_of s a <= index_of s1 a /\ supply_of s1 a = supply_of s a /\
  (forall b w, debt_now s b w <= debt_now s1 b w) /\
  (forall b, b <> a -> borrows_of s1 b = borrows_of s b /\ reserves_of s1 b = reserves_of s b /\ index_of s1 b = index_of s b) /\
  (forall b w, vouchers s1 b w = vouchers s b w) /\ ln_led s1 = ln_led s /\
  (0 < ln_time s -> accrue C s1 a = Ok s1).
Proof.
  intros R H. pose proof (reachable_linv C P s R) as [Hi _].
  destruct (accrue_full C s a s1 Hi H) as (X & HX & (A1 & A2 & A3 & A4 & A5 & _) & F).
  do 4 (split; [assumption|]). split; [exact A1|].
  split. { intros b w. apply debt_now_mono; auto; [exact (accrue_index C s a s1 b Hi H)|exact (accrue_debts C s a s1 b w H)]. }
  split. { intros b Hb. unfold borrows_of, reserves_of, index_of. rewrite (F b Hb). auto. }
  split. { intros b w. unfold vouchers. rewrite (accrue_deps C s a s1 b w H). reflexivity. }
  split; [exact (accrue_led C s a s1 H)|]. intros Ht. exact (accrue_idem C s a s1 Ht H).
Qed.
Print Assumptions C28_accrual.
(** the amounts: simple interest over the elapsed seconds at the model's rate for the current utilisation; the reserve
    factor's share of it goes to the reserves *)
Theorem C28_accrual_amounts C P s a s1 mk :
  loans_reachable C P s -> accrue C s a = Ok s1 -> ln_mkts s !! a = Some mk -> 0 < m_last (acc_of s a) < ln_time s ->
  exists util rate i,
    (borrows_of s a = 0 -> util = 0) /\
    (borrows_of s a <> 0 -> util = p_from_rational (borrows_of s a) (backing C s a)) /\
    get_borrow_rate (mk_model mk) util = Some rate /\
    i = rate * borrows_of s a / 10 ^ 18 * (ln_time s - m_last (acc_of s a)) / 31536000 /\
    borrows_of s1 a = borrows_of s a + i /\
    reserves_of s1 a = reserves_of s a + mk_rf mk * i / 10 ^ 6 /\
    index_of s1 a = index_of s a + rate * index_of s a / 10 ^ 18 * (ln_time s - m_last (acc_of s a)) / 31536000 /\
    m_last (acc_of s1 a) = ln_time s.
Proof.
  intros R H Hm Ht. apply accrue_unfold in H as [[E _]|[(_ & E & _)|(_ & _ & mk' & util & rate & i & d & ex & E1 & E2 & E3 & E4 & E5 & E6 & E7)]]; [lia|lia|].
  assert (mk' = mk) as -> by congruence. destruct E7 as (_ & _ & _ & ->). exists util, rate, i.
  unfold calc_util in E2. fold (cash C s a) in E2.
  split. { intros Hb. rewrite Hb in E2. cbn in E2. congruence. }
  split. { intros Hb. replace (borrows_of s a =? 0) with false in E2 by lia. bstep E2 t Et. apply obind_some in Et as (y & Y1 & Y2). ok_arith Y1. ok_arith Y2.
    destruct Y1 as [-> _], Y2 as [-> _]. injection E2 as <-. reflexivity. }
  split; [exact E3|]. apply accrued_interest_ok in E4 as [-> _]. apply increment_index_ok in E5 as ->.
  unfold borrows_of, reserves_of, index_of. rewrite !acc_of_put, !decide_True by auto. cbn [m_borrows m_res m_index m_last].
  rewrite FDIV_val, SPY_val. unfold p_mul_floor. rewrite PMILL_val. auto 10.
Qed.
Print Assumptions C28_accrual_amounts.
(** over any history step, nobody's debt shrinks except by a repayment or liquidation of that debt *)
Theorem C28_debts_never_shrink_by_themselves C P s s' a w :
  loans_reachable C P s ->
  (exists c, call_ok C c /\ loans_exec C P s c = Ok s' /\ ~ changes_debt c a w) ->
  debt_now s a w <= debt_now s' a w.
Proof.
  intros R (c & Hc & He & Hn). pose proof (reachable_linv C P s R) as Hi. apply debt_now_mono; [apply Hi| |].
  - exact (exec_index C P s c s' Hi Hc He a).
  - exact (exec_debts C P s c s' a w Hi Hc He Hn).
Qed.
Print Assumptions C28_debts_never_shrink_by_themselves.
Example C28_example : okb (accrue lxC lx_year 10) (fun s =>
   (borrows_of s 10 =? 424 * U) && (reserves_of s 10 =? 36 * U / 10) && (index_of s 10 =? 106 * 10 ^ 16) && (debt_now s 10 101 =? 424 * U) && (debt_now lx_year 10 101 =? 400 * U)) = true.
Proof. vm_compute. reflexivity. Qed.

(** ** C29.  The exchange rate (underlying per voucher) never falls, in any step of any history. *)
Theorem C29_exchange_rate_never_falls C P s s' a :
  cfg_ok C -> loans_reachable C P s -> loans_step C P s s' ->
  0 < supply_of s a -> 0 < supply_of s' a -> rate_of C s a <= rate_of C s' a.
Proof. intros HC R S H1 H2. exact (proj1 (proj2 (step_rok C P s s' HC (reachable_linv C P s R) S a (reachable_backing C P s a HC R))) H1 H2). Qed.
Print Assumptions C29_exchange_rate_never_falls.
Theorem C29_first_deposit_rate C P s s' a :
  cfg_ok C -> loans_reachable C P s -> loans_step C P s s' ->
  supply_of s a = 0 -> 0 < supply_of s' a -> 2 * 10 ^ 16 <= rate_of C s' a.
Proof. intros HC R S H1 H2. rewrite <- MIN_EXRATE_val. exact (proj2 (proj2 (step_rok C P s s' HC (reachable_linv C P s R) S a (reachable_backing C P s a HC R))) H1 H2). Qed.
Print Assumptions C29_first_deposit_rate.
Example C29_example : rate_of lxC lx1 10 = 20000000000000000 /\ rate_of lxC lx2 10 = 20408000000000019 /\ supply_of lx2 10 = 51470011760094081.
Proof. vm_compute. auto. Qed.

(** ** C30 *)
Theorem C30_supply_is_sum_of_vouchers C P s a : loans_reachable C P s -> supply_of s a = voucher_sum s a.
Proof. intros R. symmetry. exact (proj2 (reachable_linv C P s R) a). Qed.
Print Assumptions C30_supply_is_sum_of_vouchers.
Example C30_example : loans_reachable lxC allow_all lx2 /\ supply_of lx2 10 = vouchers lx2 10 100 + vouchers lx2 10 102 /\ vouchers lx2 10 102 = 4890039200313602.
Proof. split; [apply lx2_reach|]. vm_compute. auto. Qed.

(** ** C31.  [lf_*]: the part of the position in collaterals that cannot be liquidated, reserved for debt in one asset.
    Slack terms are rounding: one unit is 10^-18 of the price currency. *)
Theorem C31_borrow_partial C P s w a amt s' :
  loans_reachable C P s -> is_u128 amt -> w <> ln_acct C -> do_borrow C P s w a amt = Ok s' -> a <> lf_asset C ->
  exists s1, accrue C s a = Ok s1 /\
    collateral_worth C s' w = collateral_worth C s1 w /\
    borrow_worth s' w <= Z.max (borrow_worth s1 w) (collateral_worth C s' w - Z.max 0 (lf_collateral_worth C s1 w - lf_debt_worth C s1 w)) + 1.
Proof.
  intros R Ha Hw H Hne. destruct (borrow_worths C P s w a amt s' (reachable_linv C P s R) Ha Hw H) as (s1 & E & C1 & _ & B1 & _ & V0 & B2 & _).
  exists s1. split; [exact E|]. split; [exact C1|]. specialize (B2 Hne). lia.
Qed.
Print Assumptions C31_borrow_partial.
Theorem C31_borrow_liquidation_free_asset_partial C P s w amt s' :
  loans_reachable C P s -> is_u128 amt -> w <> ln_acct C -> do_borrow C P s w (lf_asset C) amt = Ok s' ->
  exists s1, accrue C s (lf_asset C) = Ok s1 /\
    collateral_worth C s' w = collateral_worth C s1 w /\ lf_collateral_worth C s' w = lf_collateral_worth C s1 w /\
    (borrow_worth s' w <= Z.max (borrow_worth s1 w) (collateral_worth C s' w) + 1 \/
     lf_debt_worth C s' w <= Z.max (lf_debt_worth C s1 w) (lf_collateral_worth C s' w) + 1).
Proof.
  intros R Ha Hw H. destruct (borrow_worths C P s w _ amt s' (reachable_linv C P s R) Ha Hw H) as (s1 & E & C1 & L1 & B1 & B3 & V0 & _ & B2).
  exists s1. split; [exact E|]. split; [exact C1|]. split; [exact L1|]. specialize (B2 eq_refl). specialize (B3 eq_refl). lia.
Qed.
Print Assumptions C31_borrow_liquidation_free_asset_partial.
(** redeeming, by any of the entry points, from state [s] after accrual (state [s1]) *)
Theorem C31_redeem_partial C P s w a s' x (all : bool) amt :
  cfg_ok C -> loans_reachable C P s -> is_u128 amt -> w <> ln_acct C ->
  (if all then do_redeem_all C P s w a else do_redeem C P s w a amt) = Ok (s', x) -> a ∉ ln_free s ->
  exists s1, accrue C s a = Ok s1 /\ borrow_worth s' w = borrow_worth s1 w /\
    (is_collateral s a w = false -> collateral_worth C s' w = collateral_worth C s1 w) /\
    (is_collateral s a w = true ->
       Z.min (borrow_worth s' w) (collateral_worth C s1 w) <= collateral_worth C s' w - Z.max 0 (lf_collateral_worth C s' w - lf_debt_worth C s' w) + price_of s a / 10 ^ 18 + 2).
Proof.
  intros HC R Ha Hw H Hl. pose proof (reachable_linv C P s R) as Hi. pose proof (reachable_backing C P s a HC R) as Hbk.
  assert (exists sel, (forall s2 r, linv s2 -> MIN_VALID_EXRATE <= r -> 0 <= sel s2 r) /\ redeem_all_eff C P s w a sel s' x) as (sel & Hsel & He).
  { destruct all; [apply do_redeem_all_eff in H; exists (fun s2 _ => vouchers s2 a w); split; [exact (sel_all_ok w a)|exact H]|].
    apply do_redeem_eff in H. eexists; split; [|exact H]. exact (sel_amt_ok amt (proj1 Ha)). }
  destruct He as (mk & s1 & s2 & r & _ & _ & Hacc & Hr & Hcore & He). pose proof (accrue_linv C s a s1 Hi Hacc) as Hi1.
  pose proof (linv_core _ _ Hcore Hi1) as Hi2. pose proof (accrue_grow C s a s1 (proj1 Hi) Hacc a) as [_ Hg].
  pose proof (exrate_pos C s1 a r Hr) as [Hrp _]. pose proof (Hsel s2 r Hi2 Hrp) as Hv.
  destruct Hcore as (R1 & E1 & X1 & Y1 & Z1 & ->).
  pose proof (redeem_worths C P _ w a _ x s' Hi2 ltac:(change (0 <= backing C s1 a); lia) Hw Hv He) as (B1 & L1 & N1 & K1).
  change (is_collateral (aux s1 R1 E1 X1 Y1 Z1) a w) with (is_collateral s1 a w) in *.
  change (borrow_worth (aux s1 R1 E1 X1 Y1 Z1) w) with (borrow_worth s1 w) in *. change (collateral_worth C (aux s1 R1 E1 X1 Y1 Z1) w) with (collateral_worth C s1 w) in *.
  change (lf_debt_worth C (aux s1 R1 E1 X1 Y1 Z1) w) with (lf_debt_worth C s1 w) in *. change (lf_collateral_worth C (aux s1 R1 E1 X1 Y1 Z1) w) with (lf_collateral_worth C s1 w) in *.
  change (ln_free (aux s1 R1 E1 X1 Y1 Z1)) with (ln_free s1) in *. change (price_of (aux s1 R1 E1 X1 Y1 Z1) a) with (price_of s1 a) in *.
  assert (Hic : is_collateral s1 a w = is_collateral s a w) by (unfold is_collateral; rewrite (accrue_deps C s a s1 a w Hacc); reflexivity).
  assert (ln_free s1 = ln_free s /\ price_of s1 a = price_of s a) as [Hfr Hpr] by (apply accrue_mkts in Hacc as [X ->]; auto).
  exists s1. split; [exact Hacc|]. split; [exact B1|]. rewrite <- Hic. split; [intros Hc; apply N1; exact Hc|].
  intros Hc. destruct (K1 Hc) as (val & V0 & V1 & V2 & V3 & V4 & _). rewrite Hfr in V3, V4. specialize (V3 Hl). specialize (V4 Hl). rewrite Hpr in V1.
  rewrite FDIV_val in V1. rewrite B1, L1, V3. lia.
Qed.
Print Assumptions C31_redeem_partial.
Theorem C31_disable_collateral C s w a s' :
  do_collateral C s w a false = Ok s' ->
  is_collateral s' a w = false /\ borrow_worth s' w = borrow_worth s w /\ borrow_worth s' w <= collateral_worth C s' w.
Proof. intros H. destruct (disable_worths C s w a s' H) as (H1 & H2 & H3). auto. Qed.
Print Assumptions C31_disable_collateral.
(** transferring vouchers: sound when the stored exchange rate of the market is not below the current one *)
Theorem C31_transfer_partial C P s pt src dst amt s' u :
  cfg_ok C -> loans_reachable C P s -> is_u128 amt -> transfer_pt C s pt src dst amt = Ok s' -> ln_under s !! pt = Some u ->
  rate_now C s u <= m_ex (acc_of s u) ->
  borrow_worth s' src = borrow_worth s src /\
  Z.min (borrow_worth s src) (collateral_worth C s src) <= collateral_worth C s' src + 2 * price_of s u / 10 ^ 18 + 2 /\
  (src <> dst -> borrow_worth s' dst = borrow_worth s dst /\ collateral_worth C s dst <= collateral_worth C s' dst).
Proof.
  intros HC R Ha H Hu Hr. pose proof (reachable_linv C P s R) as Hi.
  destruct (transfer_pt_worths C s pt src dst amt s' Hi (fun a => reachable_backing C P s a HC R) (proj1 Ha) H) as (u' & Hu' & B & D & N & K).
  assert (u' = u) as -> by congruence. split; [apply B|]. split; [|intros Hsd; split; [apply B|apply D; exact Hsd]].
  pose proof (price_nonneg s u (proj1 Hi)) as Hp0. pose proof FDIV_pos as HF. rewrite <- FDIV_val.
  assert (Hp1 : 0 <= 2 * price_of s u / FDIV) by (apply Z.div_pos; lia).
  destruct (is_collateral s u src) eqn:Hc; [|rewrite (N eq_refl); lia].
  specialize (K eq_refl). cbn zeta in K. set (liq := Z.max 0 (collateral_worth C s src - borrow_worth s src)) in *.
  set (Dr := collateral_worth C s src - collateral_worth C s' src) in *. destruct K as [K|[Hex K]]; [lia|].
  assert (K2 : FDIV * (Dr - 1) <= FDIV * liq + 2 * price_of s u).
  { assert (Hl : 0 <= liq) by lia. assert (FDIV * rate_now C s u * liq <= FDIV * m_ex (acc_of s u) * liq) by (apply Z.mul_le_mono_nonneg_r; [lia|]; apply Z.mul_le_mono_nonneg_l; lia).
    apply (Z.mul_le_mono_pos_r _ _ (m_ex (acc_of s u)) Hex). nia. }
  assert (K3 : Dr - 1 <= liq + 2 * price_of s u / FDIV + 1).
  { pose proof (Z.mul_succ_div_gt (2 * price_of s u) FDIV HF). assert (FDIV * (Dr - 1) < FDIV * (liq + Z.succ (2 * price_of s u / FDIV))) by lia. nia. }
  assert (K4 : Dr <= liq + 2 * price_of s u / FDIV + 1).
  { pose proof (Z.mul_succ_div_gt (2 * price_of s u) FDIV HF). assert (FDIV * (Dr - 1) < FDIV * (liq + Z.succ (2 * price_of s u / FDIV))) by lia. nia. }
  lia.
Qed.
Print Assumptions C31_transfer_partial.
(** the full property fails: each of these calls turns a solvent account insolvent *)
Theorem C31_refuted_borrow : exists C P s s' w a amt,
  loans_reachable C P s /\ is_u128 amt /\ w <> ln_acct C /\ do_borrow C P s w a amt = Ok s' /\
  borrow_worth s w <= collateral_worth C s w /\ collateral_worth C s' w + 4 * U < borrow_worth s' w.
Proof.
  destruct (do_borrow lxC allow_all lx_lf 102 10 (5 * U)) as [s'| |] eqn:E; [|vm_compute in E; discriminate|vm_compute in E; discriminate].
  exists lxC, allow_all, lx_lf, s', 102, 10, (5 * U). split; [apply lx_lf_reach|]. split; [lx_leaf|]. split; [cbn; lia|]. split; [exact E|].
  assert (H : okb (do_borrow lxC allow_all lx_lf 102 10 (5 * U)) (fun s' => (collateral_worth lxC s' 102 + 4 * U <? borrow_worth s' 102)) = true) by (vm_compute; reflexivity).
  rewrite E in H. cbn in H. split; [apply Z.leb_le; vm_compute; reflexivity|lia].
Qed.
Print Assumptions C31_refuted_borrow.
Theorem C31_refuted_transfer : exists C P s s' pt src dst amt,
  loans_reachable C P s /\ is_u128 amt /\ src <> ln_acct C /\ transfer_pt C s pt src dst amt = Ok s' /\
  borrow_worth s src + 500 * U <= collateral_worth C s src /\ collateral_worth C s' src + 400 * U < borrow_worth s' src.
Proof.
  destruct (transfer_pt lxC lx_gift 1020 101 100 (25000 * U)) as [s'| |] eqn:E; [|vm_compute in E; discriminate|vm_compute in E; discriminate].
  exists lxC, allow_all, lx_gift, s', 1020, 101, 100, (25000 * U). split; [apply lx_gift_reach|]. split; [lx_leaf|]. split; [cbn; lia|]. split; [exact E|].
  assert (H : okb (transfer_pt lxC lx_gift 1020 101 100 (25000 * U)) (fun s' => (collateral_worth lxC s' 101 + 400 * U <? borrow_worth s' 101)) = true) by (vm_compute; reflexivity).
  rewrite E in H. cbn in H. split; [apply Z.leb_le; vm_compute; reflexivity|lia].
Qed.
Print Assumptions C31_refuted_transfer.
(** interest of the markets the account owes in is not accrued by a redemption from another market *)
Theorem C31_refuted_redeem_stale_interest : exists C P s s1 s2 w a b amt,
  loans_reachable C P s /\ is_u128 amt /\ w <> ln_acct C /\ loans_exec C P s (LRedeem w a amt) = Ok s1 /\ accrue C s1 b = Ok s2 /\
  (exists s0, accrue C s b = Ok s0 /\ borrow_worth s0 w <= collateral_worth C s0 w) /\ collateral_worth C s2 w + 18 * U < borrow_worth s2 w.
Proof.
  assert (H : okb (lxe lx_year (LRedeem 101 20 (100 * U))) (fun s1 => okb (accrue lxC s1 10) (fun s2 => collateral_worth lxC s2 101 + 18 * U <? borrow_worth s2 101)) = true) by (vm_compute; reflexivity).
  apply okb_spec in H as (s1 & E1 & H). apply okb_spec in H as (s2 & E2 & H). cbn in H.
  assert (H0 : okb (accrue lxC lx_year 10) (fun s0 => borrow_worth s0 101 <=? collateral_worth lxC s0 101) = true) by (vm_compute; reflexivity).
  apply okb_spec in H0 as (s0 & E0 & H0). cbn in H0.
  exists lxC, allow_all, lx_year, s1, s2, 101, 20, 10, (100 * U). split; [apply lx_year_reach|]. split; [lx_leaf|]. split; [cbn; lia|]. split; [exact E1|]. split; [exact E2|].
  split; [exists s0; split; [exact E0|lia]|lia].
Qed.
Print Assumptions C31_refuted_redeem_stale_interest.
Example C31_example :
  borrow_worth lx2 101 = 419 * U /\ collateral_worth lxC lx2 101 = 505 * U /\
  okb (do_borrow lxC allow_all lx2 101 10 (80 * U)) (fun s => borrow_worth s 101 =? 499 * U) = true /\
  do_borrow lxC allow_all lx2 101 10 (90 * U) = Err "InsufficientLiquidity" /\
  okb (do_redeem lxC allow_all lx2 101 20 (80 * U)) (fun p => collateral_worth lxC p.1 101 =? 425 * U) = true /\
  okb (transfer_pt lxC lx2 1020 101 100 (4000 * U)) (fun s => collateral_worth lxC s 101 =? 425 * U) = true /\
  rate_now lxC lx2 20 = m_ex (acc_of lx2 20) /\
  is_ok (do_collateral lxC lx2 101 30 false) = true /\ do_collateral lxC lx2 101 20 false = Err "InsufficientLiquidity".
Proof. vm_compute. auto 10. Qed.

(** ** C32 *)
Theorem C32_liquidation C P s liq w la amt ca s' :
  loans_reachable C P s -> is_u128 amt -> liq <> ln_acct C -> liquidate C P s liq w la amt ca = Ok s' ->
  exists s1 s2 mk k inc,
    accrue C s la = Ok s1 /\ accrue C s1 ca = Ok s2 /\ ln_mkts s !! la = Some mk /\
    (* the borrower is not the liquidator, has enabled this collateral, and is below the liquidation threshold *)
    w <> liq /\ is_collateral s ca w = true /\ ca ∉ ln_free s /\
    (threshold_worth C s2 w < borrow_worth s2 w \/
     (lf_debt_worth C s2 w < lf_threshold_worth C s2 w /\
      threshold_worth C s2 w - borrow_worth s2 w < lf_threshold_worth C s2 w - lf_debt_worth C s2 w)) /\
    (* at most the close factor of the debt (in the liquidation-free asset: of the part not covered by reserved collateral) *)
    value_of s2 la amt <= p_mul_ceil (mk_close mk)
      (if decide (la = lf_asset C) then Z.max 0 (value_of s2 la (debt_now s2 la w) - lf_collateral_worth C s2 w) else value_of s2 la (debt_now s2 la w)) /\
    (* the liquidator pays [amt] and the debt falls by exactly [amt] *)
    amt <= debt_now s2 la w /\ debt_now s' la w = debt_now s2 la w - amt /\ borrows_of s' la = borrows_of s2 la - amt /\
    moved (ln_led s) (ln_led s') la liq (ln_acct C) amt /\
    (* exactly the vouchers taken from the borrower go to the liquidator and the incentive account *)
    0 <= inc <= k /\ k <= vouchers s ca w /\
    (forall x, vouchers s' ca x = vouchers s ca x - (if decide (x = w) then k else 0) + (if decide (x = liq) then k - inc else 0)
                                  + (if decide (x = inc_acct C) then inc else 0)) /\
    supply_of s' ca = supply_of s ca /\
    (forall c x, c <> ca -> vouchers s' c x = vouchers s c x) /\
    (forall c x, (c, x) <> (la, w) -> debt_of s' c x = debt_of s c x) /\
    (* their price: the repaid value times the incentive, at the collateral's price and exchange rate *)
    (exists r, exrate C s' ca = Ok r /\
       k = value_of s2 la amt * mk_inc mk / 10 ^ 18 * 10 ^ 18 / price_of s2 ca * 10 ^ 18 / r /\
       inc = mk_incres mk * (k * 10 ^ 18 / mk_inc mk) / 10 ^ 6).
Proof.
  intros R Ha Hw H.
  destruct (liquidate_full C P s liq w la amt ca s' (reachable_linv C P s R) Ha Hw H) as
    (s1 & s2 & mk & B & T & lB & lT & b & bv & rv & eff & k & inc & A1 & A2 & A3 & A4 & A5 & _ & A6 & E1 & E2 & E3 & E4 & A7 & E5 & E6 & E7 & A8 & A9 & A10 & A11 & A12 & A13 & A14 & A15 & A16 & A17 & A18 & A19 & A20 & A21 & A22 & A23).
  apply total_borrowed_of in E1. apply total_threshold_of in E2. apply lf_borrowed_of in E3. apply lf_threshold_of in E4. apply debt_now_eq in E5.
  apply asset_value_of in E6. apply asset_value_of in E7. apply debt_now_eq in A12. subst B T lB lT b bv rv.
  exists s1, s2, mk, k, inc. do 6 (split; [assumption|]). split; [exact A7|]. split.
  { destruct (decide (la = lf_asset C)) as [El|El]; [|rewrite <- (A8 El); exact A10].
    destruct (A9 El) as (base & Hb & He). apply lf_base_of in Hb. subst base eff. exact A10. }
  split; [exact A11|]. split; [symmetry; exact A12|]. split; [exact A13|]. split; [exact A14|]. split; [exact A16|]. split; [apply A15|]. split; [exact A17|].
  split; [exact A23|]. split. { intros c x Hc. unfold vouchers. rewrite A19 by exact Hc. reflexivity. } split; [exact A21|].
  destruct A18 as (r & cp & under & lv & q & Q1 & Q2 & Q3 & Q4 & Q5 & Q6 & Q7). exists r. split; [exact Q1|]. apply get_price_of in Q3. subst.
  unfold p_mul_floor. rewrite FDIV_val, PMILL_val. auto.
Qed.
Print Assumptions C32_liquidation.
Example C32_example_state_reachable : loans_reachable lxC allow_all lx_liq.
Proof. exact lx_liq_reach. Qed.
Example C32_example :
  threshold_worth lxC lx_liq 101 = 306 * U /\ borrow_worth lx_liq 101 = 400 * U /\
  okb (liquidate lxC allow_all lx_liq 100 101 10 (100 * U) 20) (fun s =>
     (debt_now s 10 101 =? 300 * U) && (vouchers s 20 101 =? 19500 * U) && (vouchers s 20 100 =? 5350 * U) && (vouchers s 20 2 =? 150 * U)) = true /\
  liquidate lxC allow_all lx_liq 100 101 10 (200 * U) 20 = Err "TooMuchRepay" /\
  liquidate lxC allow_all lx2 100 101 10 (100 * U) 20 = Err "InsufficientShortfall".
Proof. vm_compute. auto 10. Qed.

(** ** C33 *)
Theorem C33_borrow_cap_and_reserves C P s w a amt s' :
  loans_reachable C P s -> is_u128 amt -> w <> ln_acct C -> do_borrow C P s w a amt = Ok s' ->
  exists mk s1, ln_mkts s !! a = Some mk /\ mk_state mk = Active /\ accrue C s a = Ok s1 /\
    borrows_of s' a = borrows_of s1 a + amt /\ borrows_of s' a <= mk_bcap mk /\
    reserves_of s' a = reserves_of s1 a /\ reserves_of s' a <= bal (ln_led s') a (ln_acct C) /\
    debt_now s' a w = debt_now s1 a w + amt /\ moved (ln_led s) (ln_led s') a (ln_acct C) w amt /\
    (forall c v, (c, v) <> (a, w) -> debt_of s' c v = debt_of s c v) /\ (forall c v, dep_of s' c v = dep_of s c v).
Proof.
  intros R Ha Hw H. destruct (borrow_full C P s w a amt s' (reachable_linv C P s R) Ha Hw H) as (mk & s1 & b & A1 & A2 & A3 & A4 & A5 & A6 & A7 & A8 & A9 & A10 & A11 & A12 & A13).
  apply debt_now_eq in A4. apply debt_now_eq in A5. exists mk, s1. subst b. auto 12.
Qed.
Print Assumptions C33_borrow_cap_and_reserves.
(** the supply cap bounds the cash of the market only *)
Theorem C33_supply_cap_partial C P s w a amt s' :
  loans_reachable C P s -> is_u128 amt -> w <> ln_acct C -> do_mint C P s w a amt = Ok s' ->
  exists mk, ln_mkts s !! a = Some mk /\ bal (ln_led s') a (ln_acct C) <= mk_scap mk.
Proof.
  intros R Ha Hw H. destruct (mint_full C P s w a amt s' (reachable_linv C P s R) Ha Hw H) as (mk & s1 & r & v & A1 & _ & _ & _ & _ & _ & _ & _ & _ & _ & _ & A2 & _). eauto.
Qed.
Print Assumptions C33_supply_cap_partial.
(** what suppliers own together can exceed the supply cap, because lent-out funds are not counted *)
Theorem C33_refuted_supply_cap : exists C P s w a amt s' mk,
  loans_reachable C P s /\ is_u128 amt /\ w <> ln_acct C /\ do_mint C P s w a amt = Ok s' /\ ln_mkts s !! a = Some mk /\
  mk_scap mk + 400 * U <= backing C s' a.
Proof.
  assert (H : okb (do_mint lxC allow_all lx_cap 102 10 (400 * U)) (fun s' => someb (ln_mkts lx_cap !! 10) (fun mk => mk_scap mk + 400 * U <=? backing lxC s' 10)) = true) by (vm_compute; reflexivity).
  apply okb_spec in H as (s' & E & H). apply someb_spec in H as (mk & Em & H).
  exists lxC, allow_all, lx_cap, 102, 10, (400 * U), s', mk. split; [apply lx_cap_reach|]. split; [lx_leaf|]. split; [cbn; lia|]. split; [exact E|]. split; [exact Em|lia].
Qed.
Print Assumptions C33_refuted_supply_cap.
Example C33_example :
  okb (do_borrow lxC allow_all lx2 101 10 (80 * U)) (fun s => (borrows_of s 10 =? 499 * U) && (bal (ln_led s) 10 1 =? 558 * U + 1)) = true /\
  reserves_of lx2 10 = 66 * U / 10 /\ do_mint lxC allow_all lx_cap 102 10 (401 * U) = Err "SupplyCapacityExceeded".
Proof. vm_compute. auto. Qed.

(** ** C34 *)
Theorem C34_transfer_rewards_partial C s pt src dst amt s' u :
  0 <= amt -> transfer_pt C s pt src dst amt = Ok s' -> ln_under s !! pt = Some u ->
  u <> pt -> src <> dst -> vouchers s pt src = 0 -> vouchers s pt dst = 0 ->
  (forall x, racc_of s' x = racc_of s x) /\
  (forall x, x <> src -> x <> dst -> pending_supply_reward s' u x = pending_supply_reward s u x) /\
  (* the pair gains only if the receiver was last credited at a lower index than the sender *)
  (six_of s u src <= six_of s u dst ->
   pending_supply_reward s' u src + pending_supply_reward s' u dst <= pending_supply_reward s u src + pending_supply_reward s u dst + 1).
Proof.
  intros Ha H Hu Hn Hsd V1 V2. destruct (transfer_pt_rewards C s pt src dst amt s' u Ha H Hu Hn Hsd V1 V2) as (A1 & A2 & A3).
  split; [exact A1|]. split; [exact A2|]. intros Hs. pose proof RSCALE_pos.
  assert (amt * (six_of s u src - six_of s u dst) <= 0) by nia. nia.
Qed.
Print Assumptions C34_transfer_rewards_partial.
(** the pool has emitted 10^12 of rewards, all of them paid to account 101; a transfer to a fresh account creates another 4*10^11, which it can claim *)
Theorem C34_refuted : exists C P s s' s'' src dst amt,
  loans_reachable C P s /\ is_u128 amt /\ src <> dst /\ transfer_pt C s 1020 src dst amt = Ok s' /\
  racc_of s src = 0 /\ racc_of s dst = 0 /\ pending_supply_reward s 20 src = 0 /\ pending_supply_reward s 20 dst = 0 /\
  pending_supply_reward s' 20 dst = 4 * 10 ^ 11 /\
  claim_reward C P s' dst = Ok s'' /\ bal (ln_led s'') (rew_asset C) dst = bal (ln_led s) (rew_asset C) dst + 4 * 10 ^ 11.
Proof.
  assert (H : okb (transfer_pt lxC lx_rew 1020 101 100 (10000 * U)) (fun s' => (pending_supply_reward s' 20 100 =? 4 * 10 ^ 11) &&
     okb (claim_reward lxC allow_all s' 100) (fun s'' => bal (ln_led s'') 900 100 =? bal (ln_led lx_rew) 900 100 + 4 * 10 ^ 11)) = true) by (vm_compute; reflexivity).
  apply okb_spec in H as (s' & E & H). apply andb_prop in H as [H1 H]. apply okb_spec in H as (s'' & E2 & H).
  exists lxC, allow_all, lx_rew, s', s'', 101, 100, (10000 * U). split; [apply lx_rew_reach|]. split; [lx_leaf|]. split; [lia|]. split; [exact E|].
  split; [vm_compute; reflexivity|]. split; [vm_compute; reflexivity|]. split; [vm_compute; reflexivity|]. split; [vm_compute; reflexivity|].
  split; [lia|]. split; [exact E2|]. cbn [rew_asset lxC]. lia.
Qed.
Print Assumptions C34_refuted.

(** ** C35 *)
Theorem C35_no_panic_partial C P s c :
  loans_reachable C P s -> ln_free s = [] -> (forall a mk, ln_mkts s !! a = Some mk -> 10 ^ 18 <= mk_inc mk) ->
  loans_exec C P s c <> Panic.
Proof. intros R Hf Hi. apply exec_np; [exact (reachable_linv C P s R)|exact Hf|]. intros a mk Hm. rewrite FDIV_val. eauto. Qed.
Print Assumptions C35_no_panic_partial.
Theorem C35_liquidation_no_panic_partial C P s liq w la amt ca :
  loans_reachable C P s -> (forall mk, ln_mkts s !! la = Some mk -> 10 ^ 18 <= mk_inc mk) ->
  liquidate C P s liq w la amt ca <> Panic.
Proof. intros R Hi. apply np_liquidate; [exact (reachable_linv C P s R)|]. intros mk Hm. rewrite FDIV_val. eauto. Qed.
Print Assumptions C35_liquidation_no_panic_partial.
Theorem C35_refuted : exists C P s liq w la amt ca,
  loans_reachable C P s /\ is_u128 amt /\ liq <> ln_acct C /\ threshold_worth C s w < borrow_worth s w /\ liquidate C P s liq w la amt ca = Panic.
Proof.
  exists lxC, allow_all, lx_inc, 100, 101, 10, (100 * U), 20. split; [apply lx_inc_reach|]. split; [lx_leaf|]. split; [cbn; lia|].
  split; [apply Z.ltb_lt; vm_compute; reflexivity|]. vm_compute. reflexivity.
Qed.
Print Assumptions C35_refuted.
(** with oracle prices near 2^128 the liquidity check itself overflows *)
Theorem C35_refuted_price_overflow : exists C P s w a amt,
  loans_reachable C P s /\ is_u128 amt /\ w <> ln_acct C /\ do_borrow C P s w a amt = Panic.
Proof.
  exists lxC, allow_all, lx_big, 101, 20, (8 * 10 ^ 17). split; [apply lx_big_reach|]. split; [lx_leaf|]. split; [cbn; lia|]. vm_compute. reflexivity.
Qed.
Print Assumptions C35_refuted_price_overflow.
Example C35_example : someb (ln_mkts lx2 !! 10) (fun mk => FDIV <=? mk_inc mk) = true /\ ln_free lx0 = [] /\
  is_ok (liquidate lxC allow_all lx_liq 100 101 10 (100 * U) 20) = true.
Proof. vm_compute. auto. Qed.

(** ** C36 *)
Theorem C36_repay C P s w a amt s' :
  loans_reachable C P s -> do_repay C P s w a amt = Ok s' ->
  exists s1, accrue C s a = Ok s1 /\ amt <= debt_now s1 a w /\ debt_now s' a w = debt_now s1 a w - amt /\
    moved (ln_led s) (ln_led s') a w (ln_acct C) amt /\
    borrows_of s' a = Z.max 0 (borrows_of s1 a - amt) /\
    (forall c v, (c, v) <> (a, w) -> debt_of s' c v = debt_of s c v) /\ (forall c v, dep_of s' c v = dep_of s c v).
Proof.
  intros R H. destruct (repay_full C P s w a amt s' (reachable_linv C P s R) H) as (s1 & b & A1 & A2 & A3 & A4 & A5 & A6 & A7 & A8 & A9).
  apply debt_now_eq in A2. apply debt_now_eq in A4. exists s1. subst b. auto 10.
Qed.
Print Assumptions C36_repay.
Theorem C36_repay_all C P s w a s' :
  loans_reachable C P s -> repay_all C P s w a = Ok s' ->
  exists s1, accrue C s a = Ok s1 /\ debt_now s' a w = 0 /\ moved (ln_led s) (ln_led s') a w (ln_acct C) (debt_now s1 a w).
Proof.
  intros R H. destruct (repay_all_full C P s w a s' (reachable_linv C P s R) H) as (s1 & b & A1 & A2 & A3 & A4).
  apply debt_now_eq in A2. apply debt_now_eq in A3. exists s1. subst b. auto.
Qed.
Print Assumptions C36_repay_all.
Example C36_example : okb (do_repay lxC allow_all lx_year 101 10 (24 * U)) (fun s => (debt_now s 10 101 =? 400 * U) && (bal (ln_led s) 10 1 =? 624 * U)) = true /\
  okb (repay_all lxC allow_all lx2 101 10) (fun s => debt_now s 10 101 =? 0) = true /\ do_repay lxC allow_all lx_year 101 10 (425 * U) = Err "TooMuchRepay".
Proof. vm_compute. auto. Qed.

(** ** C49.  Reserves are always covered by cash and loans; so are the vouchers, at the exchange rate. *)
Theorem C49_reserves_covered C P s a :
  cfg_ok C -> loans_reachable C P s -> 0 <= reserves_of s a <= bal (ln_led s) a (ln_acct C) + borrows_of s a.
Proof.
  intros HC R. pose proof (reachable_backing C P s a HC R) as H. pose proof (li_acc s (proj1 (reachable_linv C P s R)) a) as (_ & _ & Hr & _).
  unfold backing in H. unfold is_u128 in Hr. lia.
Qed.
Print Assumptions C49_reserves_covered.
Theorem C49_vouchers_covered C P s a :
  cfg_ok C -> loans_reachable C P s -> 0 < supply_of s a ->
  rate_of C s a * voucher_sum s a <= (bal (ln_led s) a (ln_acct C) + borrows_of s a - reserves_of s a) * 10 ^ 18.
Proof. intros HC R H. rewrite (proj2 (reachable_linv C P s R) a). rewrite <- FDIV_val. exact (rate_mul_le C s a H). Qed.
Print Assumptions C49_vouchers_covered.
Example C49_example : loans_reachable lxC allow_all lx2 /\ cfg_ok lxC /\ reserves_of lx2 10 = 66 * U / 10 /\ bal (ln_led lx2) 10 1 + borrows_of lx2 10 = 1057 * U + 1.
Proof. split; [apply lx2_reach|]. split; [apply lxC_ok|]. vm_compute. auto. Qed.

(** ** C50.  Nobody's position is touched by other people's calls. *)
Theorem C50_debts C P s c s' a w :
  loans_reachable C P s -> call_ok C c -> loans_exec C P s c = Ok s' -> ~ changes_debt c a w -> debt_of s' a w = debt_of s a w.
Proof. intros R. exact (exec_debts C P s c s' a w (reachable_linv C P s R)). Qed.
Print Assumptions C50_debts.
Theorem C50_vouchers C P s c s' a w :
  loans_reachable C P s -> call_ok C c -> loans_exec C P s c = Ok s' -> ~ lowers_vouchers C c a w -> vouchers s a w <= vouchers s' a w.
Proof. intros R. exact (exec_vouchers C P s c s' a w (reachable_linv C P s R)). Qed.
Print Assumptions C50_vouchers.
Example C50_example : ~ lowers_vouchers lxC (LLiquidate 100 101 10 (100 * U) 20) 10 100 /\ ~ changes_debt (LRedeem 100 10 U) 10 101 /\
  lowers_vouchers lxC (LLiquidate 100 101 10 (100 * U) 20) 20 101.
Proof. cbn. intuition lia. Qed.

(** ** C51.  Exact effect of supplying and redeeming; no gain from a round trip. *)
Theorem C51_mint C P s w a amt s' :
  loans_reachable C P s -> is_u128 amt -> w <> ln_acct C -> do_mint C P s w a amt = Ok s' ->
  exists s1 r v, accrue C s a = Ok s1 /\ exrate C s1 a = Ok r /\ v = amt * 10 ^ 18 / r /\ 0 < v /\
    vouchers s' a w = vouchers s a w + v /\ supply_of s' a = supply_of s a + v /\
    moved (ln_led s) (ln_led s') a w (ln_acct C) amt /\
    (forall c x, (c, x) <> (a, w) -> vouchers s' c x = vouchers s c x).
Proof.
  intros R Ha Hw H. destruct (mint_full C P s w a amt s' (reachable_linv C P s R) Ha Hw H) as (mk & s1 & r & v & _ & _ & A1 & A2 & _ & A3 & A4 & A5 & _ & A6 & A7 & _ & A8 & _).
  exists s1, r, v. rewrite <- FDIV_val. do 7 (split; [assumption|]). intros c x Hc. unfold vouchers. rewrite (A8 c x Hc). reflexivity.
Qed.
Print Assumptions C51_mint.
Theorem C51_redeem C P s w a amt s' x :
  loans_reachable C P s -> is_u128 amt -> w <> ln_acct C -> do_redeem C P s w a amt = Ok (s', x) ->
  exists s1 r v, accrue C s a = Ok s1 /\ exrate C s1 a = Ok r /\ v = amt * 10 ^ 18 / r /\ x = v * r / 10 ^ 18 /\ x <= amt /\
    v <= vouchers s a w /\ vouchers s' a w = vouchers s a w - v /\ supply_of s' a = supply_of s a - v /\
    moved (ln_led s) (ln_led s') a (ln_acct C) w x /\ reserves_of s' a <= bal (ln_led s') a (ln_acct C) /\
    (forall c y, (c, y) <> (a, w) -> vouchers s' c y = vouchers s c y).
Proof.
  intros R Ha Hw H. apply do_redeem_eff in H.
  destruct (redeem_full C P s w a _ s' x (reachable_linv C P s R) Hw H) as (s1 & s2 & r & v & A1 & _ & A2 & A3 & A4 & A5 & A6 & A7 & _ & A8 & A9 & A10 & _).
  exists s1, r, v. rewrite <- FDIV_val. do 4 (split; [assumption|]). split.
  { pose proof (exrate_pos C s1 a r A2) as [Hr _]. rewrite MIN_VALID_val in Hr. pose proof FDIV_pos. rewrite A4. apply Z.div_le_upper_bound; [lia|].
    rewrite A3, Z.mul_comm. etransitivity; [apply Z.mul_div_le; lia|]. lia. }
  do 5 (split; [assumption|]). intros c y Hc. unfold vouchers. rewrite (A10 c y Hc). reflexivity.
Qed.
Print Assumptions C51_redeem.
(** supplying and redeeming everything in the same block never gains more than the rounding of the exchange rate,
    less than one part in 1.5 * 10^16 of the amount *)
Theorem C51_round_trip C P s w a amt s1 s2 x :
  cfg_ok C -> loans_reachable C P s -> 0 < ln_time s -> is_u128 amt -> w <> ln_acct C ->
  do_mint C P s w a amt = Ok s1 -> do_redeem_all C P s1 w a = Ok (s2, x) -> vouchers s a w = 0 -> 0 < supply_of s a ->
  (x - amt) * (15 * 10 ^ 15) < amt.
Proof. intros HC R. rewrite <- MIN_VALID_val. intros Ht. exact (round_trip C P s w a amt s1 s2 x (reachable_linv C P s R) Ht (reachable_backing C P s a HC R)). Qed.
Print Assumptions C51_round_trip.
Example C51_example : vouchers lx2 10 101 = 0 /\ okb (do_mint lxC allow_all lx2 101 10 (777 * U + 13)) (fun s1 => okb (do_redeem_all lxC allow_all s1 101 10) (fun p => p.2 =? 777 * U + 12)) = true.
Proof. vm_compute. auto. Qed.
