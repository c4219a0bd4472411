(** * LoansProps4: unhealthy accounts can be liquidated (C175). *)
From Verif Require Import Base MapSum Ledger AmmModel AmmEx AmmProofs5 LoansModel LoansSpec LoansSpec2 LoansSpec3 LoansProofs LoansProofs2 LoansProofs3 LoansProofs4 LoansProofs5
  LoansProofs8 LoansProofs9 LoansProofs12 LoansProofs13 LoansProofs14 LoansProofs15 LoansProofs16 LoansProofs18 LoansProofs19 LoansProofs21 LoansProofs22 LoansProofs23 LoansProofs24 LoansProofs25 LoansEx.

(** ** C175.  An account whose debts are worth more than its collateral at the liquidation thresholds can be liquidated by anybody who holds the tokens,
    for any amount within the close factor that the chosen collateral pays for, if the two markets involved are active and priced, interest can be
    accrued, all active markets are priced, the exchange rates of its collaterals are valid and the numbers fit. *)
Definition rewards_room (s : loans) (la ca : asset) (x : account) : Prop :=
  debt_now s la x <= U128MAX /\ debt_now s ca x <= U128MAX /\ racc_of s x + earned_in s la x + earned_in s ca x <= U128MAX.
Theorem C175_liquidation_goes_through_partial C P s s1 s2 liq w la ca amt mk mc :
  cfg_ok C -> loans_reachable C P s -> lenient P -> accrue C s la = Ok s1 -> accrue C s1 ca = Ok s2 ->
  ln_mkts s !! la = Some mk -> mk_state mk = Active -> ln_mkts s !! ca = Some mc -> mk_state mc = Active ->
  (la = lf_asset C -> collateral_worth C s2 w <= U128MAX) -> ca ∉ ln_free s -> is_aux ca = false -> 0 < price_of s la -> 0 < price_of s ca ->
  liq <> w -> inc_acct C <> w -> inc_acct C <> liq -> liq <> ln_acct C ->
  quotable C s2 w -> threshold_worth C s2 w < borrow_worth s2 w ->
  0 <= amt <= bal (ln_led s) la liq -> amt <= debt_now s2 la w -> amt <= borrows_of s2 la ->
  value_of s la amt <= p_mul_ceil (mk_close mk) (liquidatable_worth C s2 la w) -> 10 ^ 18 <= mk_inc mk ->
  is_collateral s ca w = true -> value_of s la amt * mk_inc mk / 10 ^ 18 <= value_of s ca (vouchers s ca w * rate_of C s2 ca / 10 ^ 18) ->
  0 < supply_of s2 ca -> backing C s2 ca < supply_of s2 ca -> bal (ln_led s) ca (ln_acct C) + borrows_of s2 ca <= U128MAX ->
  value_of s la (debt_now s2 la w) <= U128MAX -> value_of s ca (vouchers s ca w * rate_of C s2 ca / 10 ^ 18) <= U128MAX ->
  borrow_index_now s2 la <= U128MAX -> supply_index_now s2 ca <= U128MAX -> (forall x, x ∈ [liq; w; inc_acct C] -> rewards_room s2 la ca x) ->
  exists s', loans_exec C P s (LLiquidate liq w la amt ca) = Ok s'.
Proof.
  intros HC R LP A1 A2 Hm HA Hm2 HA2 Nl Nf Na Pl Pc N1 N2 N3 N4 HT Hw Hamt Hd Hb Hcl Hinc Hcol Hsz HS HB HM V1 V2 I1 I2 HR. rewrite <- FDIV_val in *.
  pose proof (reachable_linv C P s R) as Hi. pose proof (reachable_rinv C P s HC R) as RR. pose proof (accrue_linv C _ _ _ Hi A1) as Hi1. pose proof (accrue_linv C _ _ _ Hi1 A2) as Hi2.
  pose proof (accrue_rinv C _ _ _ Hi RR A1) as R1. pose proof (accrue_rinv C _ _ _ Hi1 R1 A2) as R2.
  pose proof (accrue_grow C _ _ _ (proj1 Hi) A1) as G1. pose proof (accrue_grow C _ _ _ (proj1 Hi1) A2) as G2.
  pose proof (floor_grow C _ _ G2 (floor_grow C _ _ G1 (reachable_floor C P s HC R))) as HFl.
  pose proof (reachable_backing C P s ca HC R) as B0. destruct (G1 ca) as [_ B1]. destruct (G2 ca) as [_ B2].
  pose proof A1 as A1'. pose proof A2 as A2'. apply accrue_mkts in A1' as [X1 E1]. apply accrue_mkts in A2' as [X2 E2].
  assert (S2 : s2 = st_acc s X2) by (rewrite E2, E1; reflexivity). clear E1 E2.
  assert (Hm' : ln_mkts s2 !! la = Some mk) by (rewrite S2; exact Hm). assert (Hm2' : ln_mkts s2 !! ca = Some mc) by (rewrite S2; exact Hm2).
  destruct (li_mkt s2 (proj1 Hi2) la mk Hm') as [_ XL]. destruct (li_mkt s2 (proj1 Hi2) ca mc Hm2') as [_ XC].
  assert (EV : forall a x, value_of s2 a x = value_of s a x) by (intros; rewrite S2; reflexivity).
  assert (EP : forall a, price_of s2 a = price_of s a) by (intros; rewrite S2; reflexivity).
  assert (EL : ln_led s2 = ln_led s) by (rewrite S2; reflexivity). assert (EW : vouchers s2 ca w = vouchers s ca w) by (rewrite S2; reflexivity).
  assert (PT : forall x, x ∈ [liq; w; inc_acct C] -> 0 <= b_part s2 la x /\ 0 <= s_part s2 ca x /\ racc_of s2 x + b_part s2 la x + s_part s2 ca x <= U128MAX).
  { intros x Hx. destruct (HR x Hx) as (D1 & D2 & D3). destruct (earned_parts s2 la x Hi2 R2 XL D1) as (Q1 & Q2 & _). destruct (earned_parts s2 ca x Hi2 R2 XC D2) as (Q3 & Q4 & _).
    unfold earned_in in D3. rewrite <- RSCALE_val in D3. unfold b_part, s_part. lia. }
  destruct (PT liq ltac:(set_solver)) as (_ & _ & T1). destruct (PT w ltac:(set_solver)) as (T2a & _ & T2). destruct (PT (inc_acct C) ltac:(set_solver)) as (T3a & _ & T3).
  cbn [loans_exec]. unfold liquidate. unfold is_lf. rewrite bool_decide_false by exact Nf. rewrite Na. cbn [negb andb ensure rbind]. rewrite A1. cbn [rbind]. rewrite A2. cbn [rbind].
  assert (HB2 : forall b, 0 <= backing C s2 b) by (intros b; pose proof (reachable_backing C P s b HC R); destruct (G1 b) as [_ ?]; destruct (G2 b) as [_ ?]; lia).
  pose proof HT as HT'. destruct HT' as (_ & _ & _ & _ & HBW). destruct (threshold_liquidity_answers C s2 w Hi2 HFl HB2 HT ltac:(lia)) as [q HT'].
  assert (HLF : la = lf_asset C -> lf_base C s2 w = Ok (lf_collateral_worth C s2 w)) by (intros El; destruct (collateral_answers C s2 w Hi2 HFl HB2 HT (Nl El)) as [_ [x Ex]]; rewrite Ex; f_equal; exact (lf_base_of C s2 w x Ex)).
  apply (liq_prog C P s2 liq w la ca amt mk mc q); rewrite ?EV, ?EP, ?EL, ?EW; auto; try lia.
  - apply (HR liq); set_solver. 
  - apply (HR w); set_solver.
  - rewrite S2. exact Hcol.
Qed.
Print Assumptions C175_liquidation_goes_through_partial.
(** without a price of the liquidation-free currency nobody at all can be liquidated, whatever was borrowed against whatever *)
Theorem C175_one_price_blocks_all C P s liq w la amt ca s' : price_of s (lf_asset C) = 0 -> loans_exec C P s (LLiquidate liq w la amt ca) <> Ok s'.
Proof.
  intros Hp H. cbn [loans_exec] in H. unfold liquidate in H. bstep H u0 E0. bstep H s1 A1. bstep H s2 A2. apply accrue_mkts in A1 as [X1 E1]. apply accrue_mkts in A2 as [X2 E2].
  unfold do_liquidate in H. bstep H m1 F1. bstep H m2 F2. bstep H m3 F3. bstep H u4 F4. bstep H u5 F5. clear H. unfold liquidate_allowed in F5. bstep F5 q F6. clear F5.
  unfold threshold_liquidity in F6. bstep F6 B G1. bstep F6 Co G2. bstep F6 lB G3. unfold lf_borrowed in G3. bstep G3 b G4. unfold asset_value, get_price in G3. bstep G3 p G5. bstep G5 p' G6. bstep G5 u6 G7. injection G5 as ->.
  rewrite E2, E1 in G6. cbn [ln_price st_acc] in G6. unfold price_of in Hp. rewrite G6 in Hp. cbn in Hp. subst p. discriminate G7.
Qed.
Print Assumptions C175_one_price_blocks_all.
Definition lx_blind_acts : list lact :=
  [ACall (LAddMarket Root 20 (lxM lxJ 1020)); ACall (LAddMarket Root 30 (lxM lxJ 1030)); ACall (LActivate Root 20); ACall (LActivate Root 30);
   APrice 10 (10 ^ 18); APrice 20 (10 ^ 18); APrice 30 (10 ^ 18); ACall (LMint 101 20 (1000 * U)); ACall (LMint 100 30 (100 * U)); ACall (LCollateral 100 30 true); ACall (LBorrow 100 20 (49 * U));
   APrice 30 (6 * 10 ^ 17); AClock 1600000006 11].
Definition lx_sick : loans := lacts_run lxC allow_all lx0 lx_blind_acts.
Definition lx_blind : loans := lacts_run lxC allow_all lx_sick [APrice 10 0].
Lemma lx_sick_reach : loans_reachable lxC allow_all lx_sick.
Proof. apply lacts_reach; [apply lx0_reach|]. unfold lx_blind_acts. lx_ok. Qed.
Lemma lx_blind_reach : loans_reachable lxC allow_all lx_blind.
Proof. apply lacts_reach; [apply lx_sick_reach|]. lx_ok. Qed.
Theorem C175_refuted : exists C P s w la ca,
  cfg_ok C /\ loans_reachable C P s /\ lenient P /\ la <> lf_asset C /\ ca <> lf_asset C /\ threshold_worth C s w + 12 * U < borrow_worth s w /\
  0 < price_of s la /\ 0 < price_of s ca /\ is_collateral s ca w = true /\ 0 < debt_now s la w /\ ln_mkts s !! lf_asset C = None /\
  (forall liq la' amt ca' s', loans_exec C P s (LLiquidate liq w la' amt ca') <> Ok s').
Proof.
  exists lxC, allow_all, lx_blind, 100, 20, 30. split; [exact lxC_ok|]. split; [apply lx_blind_reach|]. split; [repeat split|]. split; [discriminate|]. split; [discriminate|].
  split; [apply Z.ltb_lt; vm_compute; reflexivity|]. split; [apply Z.ltb_lt; vm_compute; reflexivity|]. split; [apply Z.ltb_lt; vm_compute; reflexivity|]. split; [vm_compute; reflexivity|]. split; [apply Z.ltb_lt; vm_compute; reflexivity|]. split; [vm_compute; reflexivity|].
  intros liq la' amt ca' s'. apply C175_one_price_blocks_all. vm_compute. reflexivity.
Qed.
Print Assumptions C175_refuted.
(** the hypotheses are met by the same account while the price is there *)
Definition quotable_b (s : loans) (w : account) : bool :=
  forallb (fun am => negb (bool_decide (mk_state am.2 = Active)) ||
    (0 <? price_of s am.1) && (debt_now s am.1 w <=? U128MAX) && (negb (is_collateral s am.1 w) || (vouchers s am.1 w =? 0) ||
      (backing lxC s am.1 <? supply_of s am.1) && (bal (ln_led s) am.1 1 + borrows_of s am.1 <=? U128MAX))) (map_to_list (ln_mkts s)) &&
  (0 <? price_of s 10) && (debt_now s 10 w <=? U128MAX) && (lf_debt_worth lxC s w <=? U128MAX) && (borrow_worth s w <=? U128MAX).
Definition room_b (s : loans) (la ca : asset) (x : account) : bool :=
  (debt_now s la x <=? U128MAX) && (debt_now s ca x <=? U128MAX) && (racc_of s x + earned_in s la x + earned_in s ca x <=? U128MAX).
Example C175_example :
  okb (accrue lxC lx_sick 20) (fun s1 => okb (accrue lxC s1 30) (fun s2 =>
    quotable_b s2 100 && (threshold_worth lxC s2 100 <? borrow_worth s2 100) && (24 * U <=? debt_now s2 20 100) && (24 * U <=? borrows_of s2 20) &&
    (value_of lx_sick 20 (24 * U) <=? p_mul_ceil 500000 (liquidatable_worth lxC s2 20 100)) && (debt_now s2 20 100 <=? 50 * U) &&
    (value_of lx_sick 20 (24 * U) * (11 * 10 ^ 17) / 10 ^ 18 <=? value_of lx_sick 30 (vouchers lx_sick 30 100 * rate_of lxC s2 30 / 10 ^ 18)) &&
    (0 <? supply_of s2 30) && (backing lxC s2 30 <? supply_of s2 30) && (borrow_index_now s2 20 <=? U128MAX) && (supply_index_now s2 30 <=? U128MAX) && forallb (room_b s2 20 30) [101; 100; 2])) = true /\
  someb (ln_mkts lx_sick !! 20) (fun mk => bool_decide (mk_state mk = Active) && (mk_inc mk =? 11 * 10 ^ 17)) = true /\ is_collateral lx_sick 30 100 = true /\
  okb (loans_exec lxC allow_all lx_sick (LLiquidate 101 100 20 (24 * U) 30)) (fun s' => (debt_now s' 20 100 <=? 26 * U) && (0 <? vouchers s' 30 101)) = true.
Proof. repeat split; vm_compute; reflexivity. Qed.
(** a debt in the liquidation-free currency 10, partly covered by the liquidation-free collateral 30; the other collateral, 20, lost half its price *)
Definition lx_sick2 : loans := lacts_run lxC allow_all lx1 [ACall (LBorrow 101 10 (400 * U)); APrice 20 (10 ^ 18); AClock 1600000006 11].
Example C175_example2 :
  lf_asset lxC = 10 /\ okb (accrue lxC lx_sick2 10) (fun s1 => okb (accrue lxC s1 20) (fun s2 =>
    quotable_b s2 101 && (collateral_worth lxC s2 101 <=? U128MAX) && (threshold_worth lxC s2 101 <? borrow_worth s2 101) && (0 <? lf_collateral_worth lxC s2 101) &&
    (value_of lx_sick2 10 (150 * U) <=? p_mul_ceil 500000 (liquidatable_worth lxC s2 10 101)) &&
    (value_of lx_sick2 10 (150 * U) * (11 * 10 ^ 17) / 10 ^ 18 <=? value_of lx_sick2 20 (vouchers lx_sick2 20 101 * rate_of lxC s2 20 / 10 ^ 18)) && forallb (room_b s2 10 20) [102; 101; 2])) = true /\
  okb (loans_exec lxC allow_all lx_sick2 (LLiquidate 102 101 10 (150 * U) 20)) (fun s' => (debt_now s' 10 101 <=? 251 * U) && (0 <? vouchers s' 20 102)) = true.
Proof. repeat split; vm_compute; reflexivity. Qed.
