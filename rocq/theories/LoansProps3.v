(** * LoansProps3: voucher transfers (C173) and reserves (C174). *)
From Verif Require Import Base MapSum Ledger AmmModel AmmEx AmmProofs5 LoansModel LoansSpec LoansSpec2 LoansProofs LoansProofs2 LoansProofs3 LoansProofs4 LoansProofs5
  LoansProofs8 LoansProofs9 LoansProofs12 LoansProofs13 LoansProofs14 LoansProofs15 LoansProofs18 LoansProofs21 LoansProofs22 LoansEx.

(** ** C173.  A transfer of vouchers to somebody else moves exactly these vouchers and nothing else: no tokens, debts, markets, no collateral flag
    (but an account without vouchers has no flag). *)
Theorem C173_transfer_exact C P s pt src dst amt s' :
  loans_reachable C P s -> 0 <= amt -> src <> dst -> loans_exec C P s (LTransferPt pt src dst amt) = Ok s' -> exists u,
  ln_under s !! pt = Some u /\ amt <= vouchers s u src /\
  vouchers s' u src = vouchers s u src - amt /\ vouchers s' u dst = vouchers s u dst + amt /\
  is_collateral s' u dst = is_collateral s u dst /\
  is_collateral s' u src = (if amt =? vouchers s u src then false else is_collateral s u src) /\
  (forall b x, ~ (b = u /\ (x = src \/ x = dst)) -> dep_of s' b x = dep_of s b x) /\
  (forall b x, debt_now s' b x = debt_now s b x) /\
  (forall b, supply_of s' b = supply_of s b /\ borrows_of s' b = borrows_of s b /\ reserves_of s' b = reserves_of s b /\ index_of s' b = index_of s b) /\
  ln_led s' = ln_led s /\ ln_mkts s' = ln_mkts s /\ ln_price s' = ln_price s.
Proof.
  intros R Ha Hne H. cbn [loans_exec] in H. apply transfer_pt_unfold in H as (W1 & W2 & W3 & W4 & W5 & u & red & Hu & _ & _ & Hv & Hs & Hb). exists u. split; [exact Hu|]. split; [lia|].
  cbv zeta in Hs. set (s4 := put_dep_or_remove _ _ _ _) in *.
  assert (D4 : forall b x, dep_of s4 b x = if decide ((b, x) = (u, src)) then (if vouchers s u src - amt =? 0 then dep0 else mkDep (vouchers s u src - amt) (is_collateral s u src)) else dep_of s b x).
  { intros b x. unfold s4. rewrite dep_of_put_rm. cbn [d_v]. reflexivity. }
  assert (D : forall b x, dep_of s' b x = if decide ((b, x) = (u, dst)) then mkDep (vouchers s4 u dst + amt) (is_collateral s4 u dst) else dep_of s4 b x).
  { intros b x. rewrite Hs. apply dep_of_put. }
  assert (Vd : dep_of s4 u dst = dep_of s u dst) by (rewrite D4, decide_False by congruence; reflexivity).
  assert (Ds : dep_of s' u src = dep_of s4 u src) by (rewrite D, decide_False by congruence; reflexivity).
  rewrite D4, decide_True in Ds by reflexivity.
  split. { unfold vouchers at 1. rewrite Ds. destruct (_ =? 0) eqn:E; cbn; lia. }
  split. { unfold vouchers at 1. rewrite D, decide_True by reflexivity. cbn. unfold vouchers. rewrite Vd. reflexivity. }
  split. { unfold is_collateral at 1. rewrite D, decide_True by reflexivity. cbn. unfold is_collateral. rewrite Vd. reflexivity. }
  split. { unfold is_collateral at 1. rewrite Ds. destruct (_ =? 0) eqn:E; [replace (amt =? _) with true by lia; reflexivity|]. replace (amt =? _) with false by lia. reflexivity. }
  split. { intros b x Hbx. rewrite D, decide_False, D4, decide_False; [reflexivity| |]; intros [= -> ->]; apply Hbx; auto. }
  assert (E : ln_debts s' = ln_debts s /\ ln_acc s' = ln_acc s /\ ln_led s' = ln_led s /\ ln_mkts s' = ln_mkts s /\ ln_price s' = ln_price s).
  { rewrite Hs. unfold s4, put_dep_or_remove. destruct (_ =? 0); repeat split. }
  destruct E as (E1 & E2 & E3 & E4 & E5).
  split. { intros b x. unfold debt_now, debt_of, index_of, acc_of. rewrite E1, E2. reflexivity. }
  split; [|auto]. intros b. unfold supply_of, borrows_of, reserves_of, index_of, acc_of. rewrite E2. auto.
Qed.
Print Assumptions C173_transfer_exact.
(** vouchers that are not collateral can be sent at any time, whatever prices, interest and the state of the market *)
Theorem C173_free_vouchers_go_through C P s pt u src dst amt :
  cfg_ok C -> loans_reachable C P s -> ln_under s !! pt = Some u -> ln_mkts s !! pt = None -> supply_index_now s pt <= U128MAX ->
  is_collateral s u src = false -> 0 <= amt <= vouchers s u src -> exists s', loans_exec C P s (LTransferPt pt src dst amt) = Ok s'.
Proof.
  intros HC R Hu Hn HX Hc Ha. apply (vt_prog C s pt u src dst amt (reachable_linv C P s R) (reachable_rinv C P s HC R) (reachable_inm C P s HC R)); auto.
  etransitivity; [|exact HX]. pose proof (reachable_rinv C P s HC R) as RR. pose proof (reachable_linv C P s R) as Hi.
  destruct (ri_block s RR pt) as [Hb _]. destruct (ri_speed s RR pt) as [[S0 _] _]. destruct (li_acc s (proj1 Hi) pt) as ((U0 & _) & _).
  unfold supply_index_now. cbn zeta. destruct (_ || _) eqn:E; [lia|]. apply orb_false_elim in E as [_ E].
  assert (0 <= (ln_block s - r_sb (rew_of s pt)) * r_ss (rew_of s pt) * 10 ^ 12 / supply_of s pt) by (apply Z.div_pos; [apply Z.mul_nonneg_nonneg; [apply Z.mul_nonneg_nonneg|]; lia|lia]). lia.
Qed.
Print Assumptions C173_free_vouchers_go_through.
(** sending all vouchers to oneself is no transfer, but it switches the collateral off *)
Definition lx_vt : loans := lacts_run lxC allow_all lx1 [ACall (LMint 102 10 (100 * U)); ACall (LCollateral 102 10 true)].
Lemma lx_vt_reach : loans_reachable lxC allow_all lx_vt.
Proof. apply lacts_reach; [apply lx1_reach|]. lx_ok. Qed.
Theorem C173_refuted : exists C P s pt u w amt s', cfg_ok C /\ loans_reachable C P s /\ ln_under s !! pt = Some u /\
  loans_exec C P s (LTransferPt pt w w amt) = Ok s' /\ vouchers s' u w = vouchers s u w /\ is_collateral s u w = true /\ is_collateral s' u w = false.
Proof.
  assert (E : okb (loans_exec lxC allow_all lx_vt (LTransferPt 1010 102 102 (5000 * U))) (fun s' => (vouchers s' 10 102 =? vouchers lx_vt 10 102) && is_collateral lx_vt 10 102 && negb (is_collateral s' 10 102)) = true) by (vm_compute; reflexivity).
  apply okb_spec in E as (s' & E & E1). apply andb_true_iff in E1 as [E1 E3]. apply andb_true_iff in E1 as [E1 E2]. apply Z.eqb_eq in E1. apply negb_true_iff in E3.
  exists lxC, allow_all, lx_vt, 1010, 10, 102, (5000 * U), s'. split; [exact lxC_ok|]. split; [apply lx_vt_reach|]. split; [vm_compute; reflexivity|]. auto.
Qed.
Print Assumptions C173_refuted.
Example C173_example :
  ln_under lx2 !! 1010 = Some 10 /\ ln_mkts lx2 !! 1010 = None /\ supply_index_now lx2 1010 = 0 /\ is_collateral lx2 10 102 = false /\
  okb (loans_exec lxC allow_all lx2 (LTransferPt 1010 102 101 (7 * U))) (fun s' => (vouchers s' 10 102 =? vouchers lx2 10 102 - 7 * U) && (vouchers s' 10 101 =? 7 * U)) = true.
Proof. repeat split; vm_compute; reflexivity. Qed.

(** ** C174.  The reserves: governance puts in and takes out exactly the stated amount, only out of the recorded reserves, and the backing of the
    vouchers, their number and all debts stay as they are. *)
Definition positions_kept (s s' : loans) : Prop := ln_deps s' = ln_deps s /\ ln_debts s' = ln_debts s /\ ln_racc s' = ln_racc s /\ ln_mkts s' = ln_mkts s /\
  forall b, supply_of s' b = supply_of s b /\ borrows_of s' b = borrows_of s b /\ index_of s' b = index_of s b.
Theorem C174_add_exact C P s o payer a amt s' :
  payer <> ln_acct C -> loans_exec C P s (LAddReserves o payer a amt) = Ok s' ->
  ln_reserve C o = true /\ moved (ln_led s) (ln_led s') a payer (ln_acct C) amt /\ reserves_of s' a = reserves_of s a + amt /\
  (forall b, b <> a -> reserves_of s' b = reserves_of s b) /\ (forall b, backing C s' b = backing C s b) /\ positions_kept s s'.
Proof.
  intros Hp H. cbn [loans_exec] in H. unfold add_reserves in H. bstep H u0 E0. bstep H m E1. bstep H L E2. bstep H t E3. injection H as <-.
  destruct E3 as [-> E3]. pose proof (transfer_moved P _ _ _ _ _ _ _ E2) as M. split; [exact E0|]. split; [exact M|].
  assert (A : forall b, acc_of (put_acc (st_led s L) a (set_reserves (acc_of s a) (m_res (acc_of s a) + amt))) b = if decide (b = a) then set_reserves (acc_of s a) (m_res (acc_of s a) + amt) else acc_of s b).
  { intros b. rewrite acc_of_put. reflexivity. }
  assert (RR : forall b, reserves_of (put_acc (st_led s L) a (set_reserves (acc_of s a) (m_res (acc_of s a) + amt))) b = if decide (b = a) then reserves_of s a + amt else reserves_of s b).
  { intros b. unfold reserves_of at 1. rewrite A. destruct (decide (b = a)); reflexivity. }
  assert (BB : forall b, borrows_of (put_acc (st_led s L) a (set_reserves (acc_of s a) (m_res (acc_of s a) + amt))) b = borrows_of s b).
  { intros b. unfold borrows_of at 1. rewrite A. destruct (decide (b = a)) as [->|]; reflexivity. }
  split; [rewrite RR, decide_True by reflexivity; reflexivity|]. split; [intros b Hb; rewrite RR, decide_False by exact Hb; reflexivity|].
  split. { intros b. unfold backing. rewrite RR, BB. cbn [ln_led put_acc st_acc st_led]. rewrite M. unfold at_. destruct (decide (b = a)) as [->|Hb]; [|rewrite !bool_decide_false by tauto; lia].
    rewrite bool_decide_false by (intros [_ Q]; congruence). rewrite bool_decide_true by auto. lia. }
  repeat split; try reflexivity; intros; try apply BB; unfold supply_of, index_of; rewrite A; destruct (decide (b = a)) as [->|]; reflexivity.
Qed.
Print Assumptions C174_add_exact.
Theorem C174_reduce_exact C P s o receiver a amt s' :
  receiver <> ln_acct C -> loans_exec C P s (LReduceReserves o receiver a amt) = Ok s' ->
  ln_reserve C o = true /\ amt <= reserves_of s a /\ moved (ln_led s) (ln_led s') a (ln_acct C) receiver amt /\ reserves_of s' a = reserves_of s a - amt /\
  (forall b, b <> a -> reserves_of s' b = reserves_of s b) /\ (forall b, backing C s' b = backing C s b) /\ positions_kept s s'.
Proof.
  intros Hp H. cbn [loans_exec] in H. unfold reduce_reserves in H. bstep H u0 E0. bstep H m E1. bstep H u1 E4. bstep H t E3. bstep H L E2. injection H as <-.
  destruct E3 as [-> E3]. pose proof (transfer_moved P _ _ _ _ _ _ _ E2) as M. split; [exact E0|]. split; [unfold reserves_of; lia|]. split; [exact M|].
  assert (A : forall b, acc_of (put_acc (st_led s L) a (set_reserves (acc_of s a) (m_res (acc_of s a) - amt))) b = if decide (b = a) then set_reserves (acc_of s a) (m_res (acc_of s a) - amt) else acc_of s b).
  { intros b. rewrite acc_of_put. reflexivity. }
  assert (RR : forall b, reserves_of (put_acc (st_led s L) a (set_reserves (acc_of s a) (m_res (acc_of s a) - amt))) b = if decide (b = a) then reserves_of s a - amt else reserves_of s b).
  { intros b. unfold reserves_of at 1. rewrite A. destruct (decide (b = a)); reflexivity. }
  assert (BB : forall b, borrows_of (put_acc (st_led s L) a (set_reserves (acc_of s a) (m_res (acc_of s a) - amt))) b = borrows_of s b).
  { intros b. unfold borrows_of at 1. rewrite A. destruct (decide (b = a)) as [->|]; reflexivity. }
  split; [rewrite RR, decide_True by reflexivity; reflexivity|]. split; [intros b Hb; rewrite RR, decide_False by exact Hb; reflexivity|].
  split. { intros b. unfold backing. rewrite RR, BB. cbn [ln_led put_acc st_acc st_led]. rewrite M. unfold at_. destruct (decide (b = a)) as [->|Hb]; [|rewrite !bool_decide_false by tauto; lia].
    rewrite (bool_decide_false (_ /\ ln_acct C = receiver)) by (intros [_ Q]; congruence). rewrite bool_decide_true by auto. lia. }
  repeat split; try reflexivity; intros; try apply BB; unfold supply_of, index_of; rewrite A; destruct (decide (b = a)) as [->|]; reflexivity.
Qed.
Print Assumptions C174_reduce_exact.
Theorem C174_reduce_goes_through C P s o receiver a amt mk :
  loans_reachable C P s -> lenient P -> ln_reserve C o = true -> ln_mkts s !! a = Some mk -> mk_state mk = Active ->
  0 <= amt <= reserves_of s a -> amt <= bal (ln_led s) a (ln_acct C) -> exists s', loans_exec C P s (LReduceReserves o receiver a amt) = Ok s'.
Proof.
  intros R LP Ho Hm HA Ha Hb. cbn [loans_exec]. unfold reduce_reserves. rewrite Ho. cbn [ensure rbind]. rewrite (active_prog s a mk Hm HA). cbn [rbind]. fold (reserves_of s a).
  replace (amt <=? reserves_of s a) with true by lia. cbn [ensure rbind]. destruct (li_acc s (proj1 (reachable_linv C P s R)) a) as (_ & _ & (_ & Q) & _). fold (reserves_of s a) in Q.
  unfold checked_sub. rewrite chk_ok by lia. cbn [ok_or rbind]. destruct (transfer_prog P (ln_led s) a (ln_acct C) receiver amt false LP ltac:(lia) Hb) as [L ->]. cbn. eauto.
Qed.
Print Assumptions C174_reduce_goes_through.
(** the liquidation reserve is paid out of the vouchers of its own account only, and never more than asked for *)
Theorem C174_incentive_partial C P s o receiver a amt s' :
  loans_reachable C P s -> 0 <= amt -> inc_acct C <> ln_acct C -> receiver <> ln_acct C -> receiver <> inc_acct C -> loans_exec C P s (LReduceIncentive o receiver a amt) = Ok s' ->
  exists v x, ln_reserve C o = true /\ 0 <= x <= amt /\ x = v * rate_now C s a / 10 ^ 18 /\ moved (ln_led s) (ln_led s') a (ln_acct C) receiver x /\
  vouchers s' a (inc_acct C) = vouchers s a (inc_acct C) - v /\ supply_of s' a = supply_of s a - v /\
  (forall b y, (b, y) <> (a, inc_acct C) -> dep_of s' b y = dep_of s b y) /\ ln_debts s' = ln_debts s.
Proof.
  intros R Ha0 N1 N2 N3 H. cbn [loans_exec] in H. unfold reduce_incentive in H. bstep H u0 E0. bstep H u1 E1. bstep H m E2. bstep H r E3. bstep H v E4. bstep H q E5. destruct q as [s1 x]. bstep H L E6. injection H as <-.
  pose proof (exrate_now C s a r E3) as Hr.
  apply redeem_voucher_eff in E5 as (W1 & W2 & W3 & W4 & W5 & r' & L1 & F1 & F2 & F3 & F4 & F5 & F6 & F7 & F8 & _ & F9 & F10).
  rewrite E3 in F2. injection F2 as <-.
  assert (0 < r) as Hr0. { unfold to_voucher in E4. apply ok_or_ok in E4. unfold f_checked_div in E4. destruct (r =? 0) eqn:Ez; [discriminate E4|]. apply exrate_pos in E3. pose proof MIN_VALID_val. lia. }
  assert (Hv : v = amt * FDIV / r). { unfold to_voucher in E4. apply ok_or_ok in E4. unfold f_checked_div in E4. destruct (r =? 0) eqn:Ez; [discriminate E4|]. apply chk_some in E4 as [-> _]. reflexivity. }
  pose proof FDIV_pos as HF.
  exists v, x. split; [exact E0|]. split.
  { split; [apply F4|]. rewrite F3. apply Z.div_le_upper_bound; [lia|]. rewrite Hv. pose proof (Z.mul_div_le (amt * FDIV) r Hr0). lia. }
  split; [rewrite <- FDIV_val, <- Hr; exact F3|].
  assert (HL1 : ln_led s1 = L1) by (rewrite F10; reflexivity). rewrite HL1 in E6.
  pose proof (transfer_moved P _ _ _ _ _ _ _ F9) as M1. pose proof (transfer_moved P _ _ _ _ _ _ _ E6) as M2.
  split. { intros c y. cbn [ln_led st_led]. rewrite M2, M1. lia. }
  assert (D : forall b y, dep_of (st_led s1 L) b y = if decide ((b, y) = (a, inc_acct C)) then (if vouchers s a (inc_acct C) - v =? 0 then dep0 else mkDep (vouchers s a (inc_acct C) - v) (is_collateral s a (inc_acct C))) else dep_of s b y).
  { intros b y. rewrite F10. match goal with |- dep_of (st_led (st_led (put_acc ?z _ _) _) _) b y = _ => change (dep_of z b y = if decide ((b, y) = (a, inc_acct C)) then (if vouchers s a (inc_acct C) - v =? 0 then dep0 else mkDep (vouchers s a (inc_acct C) - v) (is_collateral s a (inc_acct C))) else dep_of s b y) end.
    rewrite dep_of_put_rm. cbn [d_v]. reflexivity. }
  split. { unfold vouchers at 1. rewrite D, decide_True by reflexivity. destruct (vouchers s a (inc_acct C) - v =? 0) eqn:Ez; cbn [d_v dep0]; lia. }
  split. { rewrite F10. unfold supply_of at 1. match goal with |- m_supply (acc_of (st_led (st_led ?z _) _) a) = _ => change (m_supply (acc_of z a) = supply_of s a - v) end. rewrite acc_of_put, decide_True by reflexivity. reflexivity. }
  split. { intros b y Hby. rewrite D, decide_False by exact Hby. reflexivity. }
  rewrite F10. unfold put_dep_or_remove. cbn [d_v]. destruct (vouchers s a (inc_acct C) - v =? 0); reflexivity.
Qed.
Print Assumptions C174_incentive_partial.
(** but at the rate before the interest due: the same call burns fewer vouchers once somebody has made the market accrue *)
Definition lx_inc : loans := lacts_run lxC allow_all lx1 [ACall (LTransferPt 1010 100 2 (5000 * U)); ACall (LBorrow 101 10 (400 * U)); AClock (1600000000 + 31536000) 2000000].
Lemma lx_inc_reach : loans_reachable lxC allow_all lx_inc.
Proof. apply lacts_reach; [apply lx1_reach|]. lx_ok. Qed.
Theorem C174_stale_rate_refuted : exists C P s a o receiver amt s1 s' s1', cfg_ok C /\ loans_reachable C P s /\ accrue C s a = Ok s1 /\
  loans_exec C P s (LReduceIncentive o receiver a amt) = Ok s' /\ loans_exec C P s1 (LReduceIncentive o receiver a amt) = Ok s1' /\
  vouchers s1 a (inc_acct C) = vouchers s a (inc_acct C) /\ vouchers s' a (inc_acct C) + 80 * U < vouchers s1' a (inc_acct C).
Proof.
  assert (E : okb (loans_exec lxC allow_all lx_inc (LReduceIncentive Root 102 10 (90 * U))) (fun s' => okb (accrue lxC lx_inc 10) (fun s1 => (vouchers s1 10 2 =? vouchers lx_inc 10 2) &&
    okb (loans_exec lxC allow_all s1 (LReduceIncentive Root 102 10 (90 * U))) (fun s1' => vouchers s' 10 2 + 80 * U <? vouchers s1' 10 2))) = true) by (vm_compute; reflexivity).
  apply okb_spec in E as (s' & E1 & E). apply okb_spec in E as (s1 & E2 & E). apply andb_true_iff in E as [E3 E]. apply okb_spec in E as (s1' & E4 & E5). apply Z.eqb_eq in E3. apply Z.ltb_lt in E5.
  exists lxC, allow_all, lx_inc, 10, Root, 102, (90 * U), s1, s', s1'. split; [exact lxC_ok|]. split; [apply lx_inc_reach|]. auto.
Qed.
Print Assumptions C174_stale_rate_refuted.
Example C174_example :
  okb (loans_exec lxC allow_all lx2 (LReduceReserves Root 102 10 (2 * U))) (fun s' => (reserves_of s' 10 =? reserves_of lx2 10 - 2 * U) && (bal (ln_led s') 10 102 =? bal (ln_led lx2) 10 102 + 2 * U)) = true /\
  okb (loans_exec lxC allow_all lx2 (LAddReserves Root 102 10 (2 * U))) (fun s' => reserves_of s' 10 =? reserves_of lx2 10 + 2 * U) = true /\
  okb (loans_exec lxC allow_all lx_inc (LReduceIncentive Root 102 10 (90 * U))) (fun s' => bal (ln_led s') 10 102 =? bal (ln_led lx_inc) 10 102 + 90 * U) = true.
Proof. repeat split; vm_compute; reflexivity. Qed.
