(** * LoansProps7: the choice of collateral (C178). *)
From Verif Require Import Base MapSum Ledger AmmModel AmmEx AmmProofs5 LoansModel LoansSpec LoansSpec2 LoansSpec3 LoansProofs LoansProofs2 LoansProofs3 LoansProofs4 LoansProofs5
  LoansProofs8 LoansProofs9 LoansProofs12 LoansProofs13 LoansProofs14 LoansProofs15 LoansProofs16 LoansProofs18 LoansProofs19 LoansProofs21 LoansProofs22 LoansProofs23 LoansProofs24 LoansProofs25 LoansProofs26 LoansEx LoansProps2 LoansProps4.

(** ** C178.  Switching collateral on or off changes just that choice.  It can be switched on whenever there is a deposit in an active market; it can be
    switched off when the debts are covered by the rest of the collateral and all active markets are priced. *)
Definition only_choice (s s' : loans) (a : asset) (w : account) (on : bool) : Prop :=
  ln_led s' = ln_led s /\ ln_mkts s' = ln_mkts s /\ (forall b x, vouchers s' b x = vouchers s b x) /\ (forall b x, debt_now s' b x = debt_now s b x) /\
  (forall b, supply_of s' b = supply_of s b /\ borrows_of s' b = borrows_of s b /\ reserves_of s' b = reserves_of s b) /\ (forall x, claimable s' x = claimable s x) /\
  is_collateral s' a w = on /\ (forall b x, (b, x) <> (a, w) -> is_collateral s' b x = is_collateral s b x).
Lemma put_flag s a w d on : ln_deps s !! (a, w) = Some d -> only_choice s (put_dep s a w (mkDep (d_v d) on)) a w on.
Proof.
  intros Hd. assert (HV : forall b x, vouchers (put_dep s a w (mkDep (d_v d) on)) b x = vouchers s b x).
  { intros b x. unfold vouchers, dep_of, put_dep. cbn. destruct (decide ((b, x) = (a, w))) as [[= -> ->]|N]; [rewrite lookup_insert, Hd; reflexivity|rewrite lookup_insert_ne by congruence; reflexivity]. }
  split; [reflexivity|]. split; [reflexivity|]. split; [exact HV|]. split; [reflexivity|]. split; [repeat split|]. split.
  - intros x. unfold claimable. f_equal. apply msum_ext. intros b m _. unfold earned_in. rewrite HV. reflexivity.
  - split; [unfold is_collateral, dep_of, put_dep; cbn; rewrite lookup_insert; reflexivity|]. intros b x N. unfold is_collateral, dep_of, put_dep. cbn. rewrite lookup_insert_ne by congruence. reflexivity.
Qed.
Theorem C178_exact C P s w a on s' : loans_exec C P s (LCollateral w a on) = Ok s' -> is_collateral s a w = negb on /\ only_choice s s' a w on.
Proof.
  cbn [loans_exec]. unfold collateral_asset. intros H. bstep H mk E1. bstep H d E2. bstep H u E3. split.
  - unfold is_collateral, dep_of. rewrite E2. cbn. destruct (d_col d), on; cbn in *; congruence.
  - unfold do_collateral in H. bstep H mk' E4. rewrite E2 in H. cbn [ok_or rbind] in H. destruct on; [injection H as <-; apply put_flag; exact E2|].
    bstep H Co F1. bstep H cv F2. bstep H B F3. bstep H t F4. bstep H u5 F5. injection H as <-. apply put_flag. exact E2.
Qed.
Print Assumptions C178_exact.
Theorem C178_on_goes_through C P s w a mk d :
  ln_mkts s !! a = Some mk -> mk_state mk = Active -> ln_deps s !! (a, w) = Some d -> is_collateral s a w = false -> exists s', loans_exec C P s (LCollateral w a true) = Ok s'.
Proof.
  intros Hm HA Hd Hc. cbn [loans_exec]. unfold collateral_asset, do_collateral. rewrite (active_prog s a mk Hm HA). cbn [rbind]. rewrite Hd. cbn [ok_or rbind].
  unfold is_collateral, dep_of in Hc. rewrite Hd in Hc. cbn in Hc. rewrite Hc. cbn. eauto.
Qed.
Print Assumptions C178_on_goes_through.
Theorem C178_off_goes_through_partial C P s w a mk :
  cfg_ok C -> loans_reachable C P s -> ln_mkts s !! a = Some mk -> mk_state mk = Active -> is_collateral s a w = true ->
  quotable C s w -> collateral_worth C s w <= U128MAX -> borrow_worth s w <= collateral_worth C s w - counts_for C mk_cf s w a mk ->
  exists s', loans_exec C P s (LCollateral w a false) = Ok s'.
Proof.
  intros HC R Hm HA Hc HQ HC1 Hcov. pose proof (reachable_linv C P s R) as Hi. pose proof (reachable_floor C P s HC R) as HFl. pose proof (fun b => reachable_backing C P s b HC R) as HB.
  destruct (collateral_answers C s w Hi HFl HB HQ HC1) as [[Co E1] _]. destruct (borrowed_answers C s w Hi HQ) as [B E2]. pose proof (borrow_worth_nn s w Hi) as B0. pose proof (counts_nn C s w a mk Hi HB Hm) as K0.
  destruct (li_mkt s (proj1 Hi) a mk Hm) as [(T1 & _) _]. destruct (amount_answers C mk_cf s w a mk Hi HFl (HB a) Hm HA T1 HQ) as (x & X0 & X1 & X2).
  pose proof HQ as HQ'. destruct HQ' as (HQ1 & _). destruct (HQ1 a mk Hm HA) as (Hp & _).
  assert (E3 : collateral_value C s w a = Ok (counts_for C mk_cf s w a mk)). { unfold collateral_value. rewrite X1. cbn [rbind]. rewrite value_prog by lia. rewrite X2. reflexivity. }
  pose proof (total_collateral_of C s w Co E1). pose proof (total_borrowed_of s w B E2). subst Co B.
  cbn [loans_exec]. unfold collateral_asset, do_collateral. rewrite (active_prog s a mk Hm HA). cbn [rbind]. unfold is_collateral, dep_of in Hc. destruct (ln_deps s !! (a, w)) as [d|]; [|discriminate Hc]. cbn in Hc. cbn [ok_or rbind]. rewrite Hc. cbn [Bool.eqb negb ensure rbind].
  rewrite E1. cbn [rbind]. rewrite E3. cbn [rbind]. rewrite E2. cbn [rbind]. unfold checked_add. rewrite chk_ok by lia. cbn [ok_or rbind]. replace (_ <=? _) with true by lia. cbn. eauto.
Qed.
Print Assumptions C178_off_goes_through_partial.
(** interest is not charged first: an account whose debts, with the interest due, are covered can switch off collateral it needs for that *)
Definition lx_stale : loans := lacts_run lxC allow_all lx1 [ACall (LBorrow 101 10 (497 * U)); AClock (1600000000 + 4500000) 400000].
Lemma lx_stale_reach : loans_reachable lxC allow_all lx_stale.
Proof. apply lacts_reach; [apply lx1_reach|]. lx_ok. Qed.
Definition covered_after (C : loans_cfg) (s : loans) (b : asset) (w : account) (yes : bool) : Prop :=
  exists s1, accrue C s b = Ok s1 /\ if yes then borrow_worth s1 w <= collateral_worth C s1 w else collateral_worth C s1 w < borrow_worth s1 w.
Theorem C178_stale_refuted : exists C P s s' w a b,
  cfg_ok C /\ loans_reachable C P s /\ loans_exec C P s (LCollateral w a false) = Ok s' /\ covered_after C s b w true /\ covered_after C s' b w false.
Proof.
  assert (H : okb (loans_exec lxC allow_all lx_stale (LCollateral 101 30 false)) (fun s' => okb (accrue lxC s' 10) (fun s1 => collateral_worth lxC s1 101 <? borrow_worth s1 101)) = true) by (vm_compute; reflexivity).
  apply okb_spec in H as (s' & Hs & H). apply okb_spec in H as (s1 & H1 & H2).
  assert (K : okb (accrue lxC lx_stale 10) (fun s1 => borrow_worth s1 101 <=? collateral_worth lxC s1 101) = true) by (vm_compute; reflexivity). apply okb_spec in K as (s2 & K1 & K2).
  exists lxC, allow_all, lx_stale, s', 101, 30, 10. split; [exact lxC_ok|]. split; [apply lx_stale_reach|]. split; [exact Hs|]. split.
  - exists s2. split; [exact K1|]. apply Z.leb_le. exact K2.
  - exists s1. split; [exact H1|]. apply Z.ltb_lt. exact H2.
Qed.
Print Assumptions C178_stale_refuted.
Example C178_example :
  is_collateral lx2 30 101 = true /\ quotable_b lx2 101 = true /\
  someb (ln_mkts lx2 !! 30) (fun mk => (0 <? borrow_worth lx2 101) && (borrow_worth lx2 101 <=? collateral_worth lxC lx2 101 - counts_for lxC mk_cf lx2 101 30 mk)) = true /\
  okb (loans_exec lxC allow_all lx2 (LCollateral 101 30 false)) (fun s' => negb (is_collateral s' 30 101)) = true /\
  is_ok (loans_exec lxC allow_all lx2 (LCollateral 101 20 false)) = false /\ is_ok (loans_exec lxC allow_all lx2 (LCollateral 100 10 true)) = true.
Proof. repeat split; vm_compute; reflexivity. Qed.
