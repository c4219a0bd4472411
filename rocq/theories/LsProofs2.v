(** * LsProofs2: exact effects of the liquid-staking functions. *)
From Verif Require Import Base MapSum Ledger AmmModel LoansModel LoansSpec LoansProofs2 LoansProofs3 LoansProofs4 LoansProofs5 LsModel LsSpec LsProofs.

(** ** The lending pallet moves tokens by one transfer per call *)
Section lend.
  Context (C : loans_cfg) (P : policy).
  Lemma mint_led n w a amt n' : do_mint C P n w a amt = Ok n' -> transfer P (ln_led n) a w (ln_acct C) amt false = Ok (ln_led n').
  Proof.
    intros H. apply do_mint_eff in H as (H0 & mk & s1 & R & E & X & Y & Z & r & v & L & Hm & Hact & Hcap & Hacc & Hr & Hv0 & Hr0 & Hv & HL & B1 & B2 & ->).
    rewrite (accrue_led C _ _ _ Hacc) in HL. exact HL.
  Qed.
  Lemma borrow_led n w a amt n' : do_borrow C P n w a amt = Ok n' -> transfer P (ln_led n) a (ln_acct C) w amt false = Ok (ln_led n').
  Proof.
    intros H. apply do_borrow_eff in H as (mk & s1 & R & E & X & Y & Z & b & val & L & _ & _ & Hacc & _ & _ & _ & _ & _ & _ & _ & HL & ->).
    rewrite (accrue_led C _ _ _ Hacc) in HL. exact HL.
  Qed.
  Lemma repay_led n w a amt n' : do_repay C P n w a amt = Ok n' -> transfer P (ln_led n) a w (ln_acct C) amt false = Ok (ln_led n').
  Proof.
    intros H. apply do_repay_eff in H as (mk & s1 & _ & _ & Hacc & R & E & X & Y & Z & b & L & _ & _ & _ & HL & ->).
    rewrite (accrue_led C _ _ _ Hacc) in HL. exact HL.
  Qed.
  Lemma redeem_led n w a amt n' x : do_redeem C P n w a amt = Ok (n', x) ->
    0 <= x /\ transfer P (ln_led n) a (ln_acct C) w x false = Ok (ln_led n').
  Proof.
    intros H. apply do_redeem_eff in H as (mk & s1 & s2 & r & _ & _ & Hacc & _ & (R0 & E0 & X0 & Y0 & Z0 & ->) & R & E & X & Y & Z & r' & L & _ & _ & _ & Hx & _ & _ & _ & _ & _ & HL & ->).
    split; [apply Hx|]. change (ln_led (aux s1 R0 E0 X0 Y0 Z0)) with (ln_led s1) in HL. rewrite (accrue_led C _ _ _ Hacc) in HL. exact HL.
  Qed.
  Lemma collateral_led n w a e n' : do_collateral C n w a e = Ok n' -> ln_led n' = ln_led n.
  Proof.
    unfold do_collateral. intros H. bstep H mk E1. bstep H d E2. destruct e; [injection H as <-; reflexivity|].
    bstep H c E3. bstep H cv E4. bstep H B E5. bstep H t E6. bstep H u E7. injection H as <-. reflexivity.
  Qed.
End lend.

Section lsp.
  Context (C : ls_cfg) (E : ls_env).
  Notation P := (e_pol E).
  Notation stkA := (lc_stk C).
  Notation liqA := (lc_liq C).
  Notation colA := (lc_col C).
  Notation me := (lc_acct C).
  Notation lacct := (ln_acct (lc_loans C)).

  Lemma stk_ok a : stk C = Ok a -> a = stkA.
  Proof. unfold stk. destruct (lc_stk_known C); congruence. Qed.
  Lemma liq_ok a : liq C = Ok a -> a = liqA.
  Proof. unfold liq. destruct (lc_liq_known C); congruence. Qed.
  Lemma red_bal s a w : 0 <= bal (ls_led s) a w -> 0 <= red E s a w <= bal (ls_led s) a w.
  Proof. unfold red. lia. Qed.

  (** *** stake *)
  Lemma to_liquid_le rate x v : 0 <= rate -> 0 <= x ->
    match f_reciprocal rate with Some r => f_checked_mul_int r x | None => None end = Some v ->
    0 <= v <= U128MAX /\ rate * v <= x * FDIV /\ v = (FDIV * FDIV / rate) * x / FDIV /\ rate <> 0.
  Proof.
    intros Hr Hx. destruct (f_reciprocal rate) as [r|] eqn:E1; [|discriminate]. unfold f_reciprocal in E1.
    apply f_checked_div_some in E1 as (R1 & -> & R3). intros H. apply f_checked_mul_int_some in H as [-> H].
    split; [exact H|]. split; [|split; [reflexivity|exact R1]].
    set (r := FDIV * FDIV / rate) in *. pose proof FDIV_pos. pose proof (div_le_mul (r * x) FDIV ltac:(lia)) as D1.
    pose proof (div_le_mul (FDIV * FDIV) rate ltac:(lia)) as D2. fold r in D2. set (v := r * x / FDIV) in *.
    assert (FDIV * (rate * v) <= FDIV * (x * FDIV)); [|nia]. nia.
  Qed.
  Lemma stake_full s who amt s' : 0 <= ls_rate s -> is_permill (ls_rf s) -> 0 <= amt -> 0 <= lc_fees C -> stake C E s who amt = Ok s' ->
    exists v L, let reserves := ls_rf s * amt / PMILL in let net := amt - lc_fees C - reserves in
      lc_min_stake C <= amt /\ 0 <= net /\ 0 <= reserves /\ 0 <= amt - lc_fees C /\
      v = (FDIV * FDIV / ls_rate s) * net / FDIV /\ 0 <= v <= U128MAX /\ ls_rate s * v <= net * FDIV /\
      saturating_add (total_bonded s) net <= market_cap C s /\
      pool_stake s + net <= U128MAX /\ ls_res s + reserves <= U128MAX /\
      (forall a w, bal L a w = bal (ls_led s) a w - at_ stkA who a w (amt - lc_fees C) + at_ stkA me a w (amt - lc_fees C)
         - at_ (lc_relay C) who a w (lc_fees C) + at_ (lc_relay C) (lc_xcm C) a w (lc_fees C) + at_ liqA who a w v) /\
      (forall a, iss L a = iss (ls_led s) a + (if bool_decide (a = liqA) then v else 0)) /\ (ledger_wf (ls_led s) -> ledger_wf L) /\
      s' = st_ls_res (st_ls_pool (put_led s L) (mkMP (mkRA (pool_stake s + net) (locked_stake s)) (mp_u (ls_pool s)))) (ls_res s + reserves).
  Proof.
    intros Hrate Hrf Hamt Hfees H. unfold stake in H. bstep H u0 E0. bstep H a1 E1. destruct E1 as [-> E1]. bstep H sa E2. apply stk_ok in E2 as ->.
    bstep H L1 T1. bstep H s2 E3. unfold add_xcm_fees in E3. bstep E3 L2 T2. injection E3 as <-.
    bstep H a2 E4. destruct E4 as [-> E4]. bstep H v E5. bstep H lq E6. apply liq_ok in E6 as ->. bstep H u1 E7. unfold ensure_market_cap in E7. apply ensure_ok in E7.
    bstep H L3 T3. bstep H p E8. unfold add_stake in E8. bstep E8 ra E8a. injection E8 as <-. apply ra_add_ok in E8a as (A1 & A2 & A3).
    bstep H r E9. destruct E9 as [-> E9]. injection H as <-.
    change (p_mul_floor (ls_rf s) amt) with (ls_rf s * amt / PMILL) in *. set (rs := ls_rf s * amt / PMILL) in *.
    assert (0 <= rs). { unfold rs. apply Z.div_pos; [|reflexivity]. destruct Hrf. nia. }
    unfold staking_to_liquid in E5. apply to_liquid_le in E5; [|exact Hrate|lia]. destruct E5 as (V1 & V2 & V3 & V4).
    change (ls_rate (put_led (put_led s L1) L2)) with (ls_rate s) in *.
    change (ls_led (put_led (put_led s L1) L2)) with L2 in T3. change (ls_led (put_led s L1)) with L1 in T2.
    exists v, L3. cbn zeta. fold rs.
    pose proof (transfer_spec _ _ _ _ _ _ _ _ T1) as (B1 & I1 & _). pose proof (transfer_spec _ _ _ _ _ _ _ _ T2) as (B2 & I2 & _).
    pose proof (mint_spec _ _ _ _ _ _ T3) as (_ & B3 & I3).
    split; [lia|]. split; [lia|]. split; [lia|]. split; [lia|]. split; [exact V3|]. split; [exact V1|]. split; [exact V2|]. split; [unfold market_cap, total_bonded, led_values in *; cbn in E7; lia|].
    cbn in A1, A3, E9. unfold pool_stake. split; [lia|]. split; [lia|]. split.
    { intros a w. rewrite B3, B2, B1. lia. }
    split. { intros a. rewrite I3, I2, I1. reflexivity. }
    split. { intros W. apply transfer_wf in T1; [|lia|assumption]. apply transfer_wf in T2; [|lia|assumption]. apply mint_wf in T3; assumption. }
    destruct ra as [t rr]. cbn in A1, A2. subst t rr. reflexivity.
  Qed.

  (** *** unstake *)
  Lemma add_unstake_ok p x p' : add_unstake p x = Ok p' ->
    p' = mkMP (mp_s p) (mkRA (ra_tot (mp_u p) + x) (ra_res (mp_u p))) /\ ra_tot (mp_u p) + x <= U128MAX.
  Proof. unfold add_unstake. intros H. bstep H r Er. injection H as <-. apply ra_add_ok in Er as (A1 & A2 & A3). destruct r; cbn in *. subst. auto. Qed.
  Lemma raw_add32_ok a b c : raw_add32 a b = Ok c -> c = a + b /\ a + b <= U32MAX.
  Proof. unfold raw_add32. destruct (_ <=? U32MAX) eqn:G; intros H; [injection H as <-; lia|discriminate]. Qed.
  Lemma target_era_ok s e : target_era C s = Ok e -> e = ls_era s + lc_bonding C + 1 /\ e <= U32MAX.
  Proof. unfold target_era. intros H. bstep H e1 E1. apply raw_add32_ok in E1 as [-> _]. apply raw_add32_ok in H as [-> H]. lia. Qed.
  Lemma permill_floor f x : is_permill f -> 0 <= x -> 0 <= f * x / PMILL <= x.
  Proof.
    intros [H1 H2] Hx. pose proof PMILL_pos. split; [apply Z.div_pos; nia|]. apply Z.div_le_upper_bound; [lia|]. nia.
  Qed.
  (** the instant unstake through the lending pallet *)
  Lemma instant_full s who x s' : loans_instant_unstake C E s who x = Ok s' -> 0 <= x -> is_u128 x -> 0 <= lc_loans_fee C ->
    exists n b m cf n1 n2 n3 n4, let fee := lc_loans_fee C * x / FDIV in
      b = x - fee /\ 0 <= b <= U128MAX /\ 0 <= fee /\
      market_cf (ls_ln s) colA = Ok cf /\ p_recip_mul_ceil cf x = Ok m /\ is_u128 m /\
      mint_into P (ls_led s) colA me m = Ok (ln_led n1) /\ n1 = st_led (ls_ln s) (ln_led n1) /\
      do_mint (lc_loans C) P n1 me colA m = Ok n2 /\
      (n3 = n2 \/ do_collateral (lc_loans C) n2 me colA true = Ok n3) /\
      do_borrow (lc_loans C) P n3 me stkA b = Ok n4 /\
      transfer P (ln_led n4) stkA me who b false = Ok (ln_led n) /\ n = st_led n4 (ln_led n) /\
      s' = st_ls_ln s n.
  Proof.
    intros H Hx Hx2 Hf. unfold loans_instant_unstake in H. bstep H fee E1. destruct E1 as [E1 E1']. bstep H b E2. destruct E2 as [-> E2].
    bstep H cf E3. bstep H m E4. bstep H sa E5. apply stk_ok in E5 as ->. bstep H L1 T1. bstep H n2 E6. bstep H n3 E7. bstep H n4 E8. bstep H L5 T5.
    injection H as <-. subst fee.
    exists (st_led n4 L5), (x - lc_loans_fee C * x / FDIV), m, cf, (st_led (ls_ln s) L1), n2, n3, n4. cbn zeta. split; [reflexivity|]. split; [exact E2|].
    split; [apply E1'|]. split; [exact E3|]. split; [exact E4|]. split.
    { unfold p_recip_mul_ceil in E4. destruct (cf =? 0); [discriminate|]. injection E4 as <-. apply sat128_range. }
    split; [exact T1|]. split; [reflexivity|]. split; [exact E6|]. split.
    { destruct (do_collateral _ _ _ _ _) eqn:K; [injection E7 as <-; auto|injection E7 as <-; auto|discriminate]. }
    split; [exact E8|]. split; [exact T5|]. split; [reflexivity|]. reflexivity.
  Qed.

  Lemma unstake_pool s who amt s' : is_permill (ls_urf s) -> is_u128 amt -> unstake C E s who amt MatchingPool = Ok s' ->
    let reserves := ls_urf s * amt / PMILL in let la := amt - reserves in
    lc_min_unstake C <= amt /\ 0 <= reserves /\ 0 <= la /\ ls_ures s + reserves <= U128MAX /\
    s' = st_ls_fast (st_ls_ures s (ls_ures s + reserves))
        (<[who := Z.min (saturating_add (default 0 (ls_fast s !! who)) la) (red E s liqA who)]> (ls_fast s)).
  Proof.
    intros Hp Hamt H. cbn zeta. unfold unstake in H. bstep H u0 E0. bstep H u E1. destruct E1 as [-> E1]. bstep H la E2. destruct E2 as [-> E2].
    change (p_mul_floor (ls_urf s) amt) with (ls_urf s * amt / PMILL) in *. pose proof (permill_floor _ _ Hp (proj1 Hamt)) as Hrs.
    bstep H lq E3. apply liq_ok in E3 as ->. injection H as <-. split; [lia|]. split; [lia|]. split; [lia|]. split; [lia|]. reflexivity.
  Qed.
  Definition unstake_eff (s : lst) (who : account) (amt : Z) (pr : provider) (s' : lst) : Prop :=
    let reserves := ls_urf s * amt / PMILL in let la := amt - reserves in
    let key := match pr with Loans => lacct | _ => who end in
    let x := ls_rate s * la / FDIV in let era := ls_era s + lc_bonding C + 1 in
    lc_min_unstake C <= amt /\ 0 <= reserves /\ 0 <= la /\ ls_ures s + reserves <= U128MAX /\
    is_u128 x /\ era <= U32MAX /\
    Z.of_nat (length (add_chunk (queue_of s key) x era)) <= 32 /\ pool_unstake s + x <= U128MAX /\ (0 < amt -> amt <= bal (ls_led s) liqA who) /\
    exists L s4,
    (forall a w, bal L a w = bal (ls_led s) a w - at_ liqA who a w amt + at_ liqA me a w reserves) /\
    (forall a, iss L a = iss (ls_led s) a - (if bool_decide (a = liqA) then la else 0)) /\ (ledger_wf (ls_led s) -> ledger_wf L) /\
    s4 = st_ls_ln (st_ls_unl (st_ls_ures s (ls_ures s + reserves)) (<[key := add_chunk (queue_of s key) x era]> (ls_unl s))) (st_led (ls_ln s) L) /\
    exists s5, match pr with Loans => loans_instant_unstake C E s4 who x | _ => Ok s4 end = Ok s5 /\
      s' = st_ls_pool s5 (mkMP (mp_s (ls_pool s)) (mkRA (pool_unstake s + x) (locked_unstake s))).
  Lemma instant_pool s who x s' : loans_instant_unstake C E s who x = Ok s' -> ls_pool s' = ls_pool s.
  Proof.
    intros H. unfold loans_instant_unstake in H. bstep H fee E1. bstep H b E2. bstep H cf E3. bstep H m E4. bstep H sa E5. bstep H L1 T1. bstep H n2 E6. bstep H n3 E7. bstep H n4 E8. bstep H L5 T5.
    injection H as <-. reflexivity.
  Qed.
  Lemma unstake_full s who amt pr s' : pr <> MatchingPool -> is_permill (ls_urf s) -> is_u128 amt -> unstake C E s who amt pr = Ok s' -> unstake_eff s who amt pr s'.
  Proof.
    intros Hpr Hp Hamt H. unfold unstake_eff. unfold unstake in H. bstep H u0 E0. bstep H u E1. destruct E1 as [-> E1]. bstep H la E2. destruct E2 as [-> E2].
    change (p_mul_floor (ls_urf s) amt) with (ls_urf s * amt / PMILL) in *. pose proof (permill_floor _ _ Hp (proj1 Hamt)) as Hrs.
    cbn zeta. set (rs := ls_urf s * amt / PMILL) in *. split; [lia|]. split; [lia|]. split; [lia|]. split; [lia|].
    destruct pr; [| |congruence];
      bstep H x E3; unfold liquid_to_staking in E3; apply f_checked_mul_int_some in E3 as [E3 E3']; change (ls_rate (st_ls_ures s (ls_ures s + rs))) with (ls_rate s) in E3;
      cbv zeta in H; bstep H era E4; apply target_era_ok in E4 as [E4 E4']; change (ls_era (st_ls_ures s (ls_ures s + rs))) with (ls_era s) in E4;
      bstep H u1 E5; bstep H lq E6; apply liq_ok in E6 as ->; bstep H L1 T1; bstep H L2 T2; bstep H s5 E7; bstep H p E8; apply add_unstake_ok in E8 as [-> E8]; injection H as <-;
      change (ls_unl (st_ls_ures s (ls_ures s + rs))) with (ls_unl s) in *;
      match type of E5 with context [add_chunk (default [] (ls_unl s !! ?k))] => change (default [] (ls_unl s !! k)) with (queue_of s k) in * end;
      rewrite <- E3, <- E4; (split; [exact E3'|]; split; [exact E4'|]; split; [unfold MAX_CHUNKS in E5; lia|]);
      match type of T1 with burn_from _ ?l _ _ _ = _ => change l with (ls_led s) in T1 end;
      pose proof (burn_spec _ _ _ _ _ _ T1) as (_ & Bb & B1 & I1); pose proof (mint_spec _ _ _ _ _ _ T2) as (_ & B2 & I2).
    - subst s5. split; [exact E8|]. split; [exact Bb|]. exists L2. eexists. split; [intros a w; rewrite B2, B1; reflexivity|].
      split; [intros a; rewrite I2, I1; repeat case_bool_decide; first [lia|congruence]|]. split; [intros W; eapply mint_wf; [eapply burn_wf; [exact W|exact T1]|exact T2]|].
      split; [reflexivity|]. eexists. split; [reflexivity|]. reflexivity.
    - pose proof (instant_pool _ _ _ _ E7) as Hpool. rewrite Hpool in *. split; [exact E8|]. split; [exact Bb|]. exists L2. eexists. split; [intros a w; rewrite B2, B1; reflexivity|].
      split; [intros a; rewrite I2, I1; repeat case_bool_decide; first [lia|congruence]|]. split; [intros W; eapply mint_wf; [eapply burn_wf; [exact W|exact T1]|exact T2]|].
      split; [reflexivity|]. exists s5. split; [exact E7|]. reflexivity.
  Qed.

  (** *** claim *)
  Lemma due_sum_ok era l acc t : due_sum era l acc = Ok t -> t = acc + chunk_sum (due era l).
  Proof.
    revert acc. induction l as [|c l IH]; intros acc; cbn [due_sum].
    - intros [= <-]. cbn. lia.
    - unfold due. cbn [List.filter]. destruct (era <? c_era c) eqn:G.
      + replace (c_era c <=? era) with false by lia. apply IH.
      + replace (c_era c <=? era) with true by lia. intros H. bstep H a Ea. destruct Ea as [-> _]. apply IH in H. rewrite chunk_sum_cons. fold (due era l). lia.
  Qed.
  Definition claimed_queue (s : lst) (who : account) (l : list chunk) : gmap Z (list chunk) :=
    match not_due (ls_era s) l with [] => delete who (ls_unl s) | r => <[who := r]> (ls_unl s) end.
  (** what [claim_for] does apart from paying *)
  Definition claim_eff (s : lst) (o : origin) (who : account) (s' : lst) : Prop :=
    exists l n, ls_unl s !! who = Some l /\ let amount := chunk_sum (due (ls_era s) l) in
      ensure_agent C o = Ok tt /\ 0 < amount <= U128MAX /\
      amount <= Z.max 0 (Z.max 0 (red E s stkA me - ls_res s) - pool_stake s) /\
      do_claim_for C E s who amount = Ok (st_ls_ln s n) /\ s' = st_ls_unl (st_ls_ln s n) (claimed_queue s who l).
  Lemma do_claim_ln s who amt s' : do_claim_for C E s who amt = Ok s' -> s' = st_ls_ln s (ls_ln s').
  Proof.
    unfold do_claim_for. intros H. bstep H a E1. destruct (bool_decide _).
    - bstep H n1 E2. bstep H b E3. bstep H n2 E4. bstep H cf E5. bstep H x E6. bstep H n3 E7. bstep H L E8. injection H as <-. reflexivity.
    - bstep H L E2. injection H as <-. reflexivity.
  Qed.
  Lemma due_sum_range era l acc t : 0 <= acc <= U128MAX -> due_sum era l acc = Ok t -> 0 <= t <= U128MAX.
  Proof.
    revert acc. induction l as [|c l IH]; intros acc Ha; cbn [due_sum]; [intros [= <-]; exact Ha|]. destruct (era <? c_era c); [apply IH; exact Ha|].
    intros H. bstep H a Ea. destruct Ea as [-> Ea]. apply IH in H; [exact H|exact Ea].
  Qed.
  Lemma claim_full s o who s' : claim_for C E s o who = Ok s' -> claim_eff s o who s'.
  Proof.
    unfold claim_for. intros H. bstep H u0 E0. destruct u0. bstep H l E1. bstep H amt E2. pose proof (due_sum_range _ _ 0 _ ltac:(pose proof U128MAX_pos; lia) E2) as Hr.
    apply due_sum_ok in E2. rewrite Z.add_0_l in E2. bstep H a E3. apply stk_ok in E3 as ->.
    bstep H u1 E4. bstep H u2 E5. bstep H s1 E6. injection H as <-. unfold total_unclaimed, saturating_sub in E5. fold (pool_stake s) in E5.
    rewrite filter_not_due. pose proof (do_claim_ln _ _ _ _ E6) as Hs1. exists l, (ls_ln s1). split; [exact E1|]. cbn zeta. subst amt.
    split; [exact E0|]. split; [lia|]. split; [lia|]. rewrite <- Hs1. split; [exact E6|]. unfold claimed_queue.
    rewrite Hs1. destruct (not_due (ls_era s) l); reflexivity.
  Qed.
  Lemma claim_user s who amt n : who <> lacct -> do_claim_for C E s who amt = Ok (st_ls_ln s n) ->
    transfer P (ls_led s) stkA me who amt false = Ok (ln_led n) /\ n = st_led (ls_ln s) (ln_led n).
  Proof.
    intros Hw H. unfold do_claim_for in H. bstep H a E1. apply stk_ok in E1 as ->. destruct (bool_decide _) eqn:G; [apply bool_decide_eq_true in G; congruence|].
    bstep H L E2. injection H as H. unfold put_led in H. assert (n = st_led (ls_ln s) L) as ->.
    { exact (eq_sym H). } auto.
  Qed.
  Lemma claim_loans s amt n : do_claim_for C E s lacct amt = Ok (st_ls_ln s n) ->
    exists n1 b n2 cf x n3 y,
      accrue (lc_loans C) (ls_ln s) stkA = Ok n1 /\ borrow_balance n1 me stkA = Ok b /\
      do_repay (lc_loans C) P n1 me stkA (Z.min b amt) = Ok n2 /\ market_cf n2 colA = Ok cf /\ p_recip_mul_ceil cf amt = Ok x /\ is_u128 x /\
      do_redeem (lc_loans C) P n2 me colA x = Ok (n3, y) /\ burn_from P (ln_led n3) colA me x = Ok (ln_led n) /\ n = st_led n3 (ln_led n).
  Proof.
    intros H. unfold do_claim_for in H. bstep H a E1. apply stk_ok in E1 as ->. rewrite bool_decide_true in H by reflexivity.
    bstep H n1 E2. bstep H b E3. bstep H n2 E4. bstep H cf E5. bstep H x E6. bstep H n3 E7. bstep H L E8. injection H as H. unfold put_led in H.
    assert (n = st_led n3.1 L) as ->. { exact (eq_sym H). }
    destruct n3 as [n3 y]. exists n1, b, n2, cf, x, n3, y. do 5 (split; [assumption|]). split.
    { unfold p_recip_mul_ceil in E6. destruct (cf =? 0); [discriminate|]. injection E6 as <-. apply sat128_range. }
    split; [exact E7|]. split; [exact E8|reflexivity].
  Qed.

  (** *** fast unstake *)
  Lemma sub_stake_ok p x p' : sub_stake p x = Ok p' ->
    p' = mkMP (mkRA (ra_tot (mp_s p) - x) (ra_res (mp_s p))) (mp_u p) /\ x <= free_stake p.
  Proof. unfold sub_stake. intros H. bstep H r Er. injection H as <-. apply ra_sub_ok in Er as (A1 & A2 & A3). destruct r; cbn in *. subst. unfold free_stake. auto. Qed.
  Definition fast_eff (s : lst) (w : account) (s' : lst) : Prop :=
    exists b avail, ls_fast s !! w = Some b /\
      let request := Z.min b (red E s liqA w) in
      let matched := Z.min request avail in
      let fee := Z.min U128MAX (lc_fast_fee C * matched / FDIV) in
      let burnt := Z.max 0 (matched - fee) in
      let x := ls_rate s * burnt / FDIV in
      let rest := Z.max 0 (request - matched) in
      let fast' := if rest =? 0 then delete w (ls_fast s) else <[w := rest]> (ls_fast s) in
      0 <= avail /\ avail = (FDIV * FDIV / ls_rate s) * free_stake (ls_pool s) / FDIV /\
      ((matched = 0 /\ s' = st_ls_fast s fast') \/
       exists L, 0 < matched /\ 0 <= fee /\ 0 <= x /\ x <= free_stake (ls_pool s) /\
         (forall a y, bal L a y = bal (ls_led s) a y - at_ liqA w a y burnt - at_ liqA w a y fee + at_ liqA (lc_fee_rcv C) a y fee
            - at_ stkA me a y x + at_ stkA w a y x) /\
         (forall a, iss L a = iss (ls_led s) a - (if bool_decide (a = liqA) then burnt else 0)) /\ (ledger_wf (ls_led s) -> ledger_wf L) /\
         s' = st_ls_fast (st_ls_pool (put_led s L) (mkMP (mkRA (pool_stake s - x) (locked_stake s)) (mp_u (ls_pool s)))) fast').
  Lemma fast_full s w s' : pool_ok (ls_pool s) -> 0 <= ls_rate s -> 0 <= lc_fast_fee C -> ledger_wf (ls_led s) -> (forall b, ls_fast s !! w = Some b -> 0 <= b) ->
    fast_match_one C E s w = Ok s' -> (s' = s /\ ls_fast s !! w = None) \/ fast_eff s w s'.
  Proof.
    intros Hp Hrate Hfee W Hb H. unfold fast_match_one in H. destruct (ls_fast s !! w) as [b|] eqn:Ef; [|injection H as <-; auto]. right.
    bstep H lq E1. apply liq_ok in E1 as ->. bstep H f E2. rewrite (ra_free_ok _ (proj1 Hp)) in E2. injection E2 as <-.
    bstep H avail E3. unfold staking_to_liquid in E3. apply to_liquid_le in E3; [|exact Hrate|destruct Hp as [(?&?&?) _]; lia].
    destruct E3 as (V1 & V2 & V3 & V4). bstep H s1 E4. injection H as <-. exists b, avail. split; [exact Ef|]. cbn zeta.
    pose proof (red_bal s liqA w (proj1 W liqA w)) as Hred. specialize (Hb b eq_refl).
    set (request := Z.min b (red E s liqA w)) in *. set (matched := Z.min request avail) in *.
    split; [lia|]. split; [exact V3|]. destruct (matched =? 0) eqn:G0.
    - injection E4 as <-. left. split; [lia|]. reflexivity.
    - right. bstep E4 L T1. bstep E4 L2 T2. bstep E4 x E5. unfold liquid_to_staking in E5. apply f_checked_mul_int_some in E5 as [E5 E5'].
      bstep E4 p E6. apply sub_stake_ok in E6 as [-> E6]. bstep E4 sa E7. apply stk_ok in E7 as ->. bstep E4 L3 T3. injection E4 as <-.
      assert (Hf0 : f_saturating_mul_int (lc_fast_fee C) matched = Z.min U128MAX (lc_fast_fee C * matched / FDIV)).
      { unfold f_saturating_mul_int, sat128. assert (0 <= lc_fast_fee C * matched / FDIV); [|lia]. apply Z.div_pos; [nia|reflexivity]. }
      rewrite Hf0 in *. set (fee := Z.min U128MAX (lc_fast_fee C * matched / FDIV)) in *. unfold saturating_sub in *. rewrite <- E5.
      assert (0 <= fee). { unfold fee. pose proof U128MAX_pos. assert (0 <= lc_fast_fee C * matched / FDIV); [|lia]. apply Z.div_pos; [nia|reflexivity]. }
      pose proof (burn_spec _ _ _ _ _ _ T1) as (_ & _ & B1 & I1). pose proof (transfer_spec _ _ _ _ _ _ _ _ T2) as (B2 & I2 & _).
      pose proof (transfer_spec _ _ _ _ _ _ _ _ T3) as (B3 & I3 & _).
      exists L3. split; [lia|]. split; [lia|]. split; [lia|]. split; [exact E6|].
      split; [intros a y; rewrite B3, B2, B1; lia|]. split; [intros a; rewrite I3, I2, I1; reflexivity|].
      split; [intros _; eapply transfer_wf; [|eapply transfer_wf; [|eapply burn_wf; [exact W|exact T1]|exact T2]|exact T3]; lia|].
      unfold pool_stake, locked_stake. reflexivity.
  Qed.

  (** *** requests *)
  Definition lock_of (p : mpool) (r : request) : mpool :=
    mkMP (mkRA (ra_tot (mp_s p)) (ra_res (mp_s p) + req_stake r)) (mkRA (ra_tot (mp_u p)) (ra_res (mp_u p) + req_unstake r)).
  (** one request is sent: its amount is locked and its fee burnt from the fee account *)
  Definition send_eff (s : lst) (r : request) (s' : lst) : Prop :=
    req_idx r ∈ lc_idx C /\ exists L fee, 0 <= fee /\
      0 <= req_stake r /\ 0 <= req_unstake r /\
      (req_stake r <> 0 -> locked_stake s + req_stake r <= pool_stake s) /\
      (req_unstake r <> 0 -> locked_unstake s + req_unstake r <= pool_unstake s) /\
      (forall a w, bal L a w = bal (ls_led s) a w - at_ (lc_relay C) (lc_xcm C) a w fee) /\
      (forall a, iss L a = iss (ls_led s) a - (if bool_decide (a = lc_relay C) then fee else 0)) /\ (ledger_wf (ls_led s) -> ledger_wf L) /\
      s' = st_ls_qid (st_ls_reqs (st_ls_ln (st_ls_pool s (lock_of (ls_pool s) r)) (st_led (ls_ln s) L)) (<[ls_qid s := r]> (ls_reqs s))) (ls_qid s + 1).
  Lemma send_ok s k r s' : send C E s k r = Ok s' ->
    exists L fee, 0 <= fee /\ fee = default 0 (ls_xfee s !! k) /\ e_send E (ls_qid s) = true /\
      (forall a w, bal L a w = bal (ls_led s) a w - at_ (lc_relay C) (lc_xcm C) a w fee) /\
      (forall a, iss L a = iss (ls_led s) a - (if bool_decide (a = lc_relay C) then fee else 0)) /\ (ledger_wf (ls_led s) -> ledger_wf L) /\
      s' = st_ls_qid (st_ls_reqs (put_led s L) (<[ls_qid s := r]> (ls_reqs s))) (ls_qid s + 1).
  Proof.
    unfold send. intros H. bstep H L E1. destruct (burn_from _ _ _ _ _) as [L0| |] eqn:T1; [|discriminate|discriminate]. injection E1 as <-. bstep H u E2.
    injection H as <-. pose proof (burn_spec _ _ _ _ _ _ T1) as (B0 & _ & B1 & I1). exists L0, (default 0 (ls_xfee s !! k)).
    split; [exact B0|]. split; [reflexivity|]. split; [exact E2|]. split; [exact B1|]. split; [exact I1|]. split; [intros W; eapply burn_wf; [exact W|exact T1]|]. reflexivity.
  Qed.
  Lemma lock_stake_ok p x p' : lock_stake p x = Ok p' ->
    p' = mkMP (mkRA (ra_tot (mp_s p)) (ra_res (mp_s p) + x)) (mp_u p) /\ ra_res (mp_s p) + x <= ra_tot (mp_s p).
  Proof. unfold lock_stake. intros H. bstep H r Er. injection H as <-. apply ra_lock_ok in Er as (A1 & A2 & A3). destruct r; cbn in *. subst. auto. Qed.
  Lemma lock_unstake_ok p x p' : lock_unstake p x = Ok p' ->
    p' = mkMP (mp_s p) (mkRA (ra_tot (mp_u p)) (ra_res (mp_u p) + x)) /\ ra_res (mp_u p) + x <= ra_tot (mp_u p).
  Proof. unfold lock_unstake. intros H. bstep H r Er. injection H as <-. apply ra_lock_ok in Er as (A1 & A2 & A3). destruct r; cbn in *. subst. auto. Qed.
  Lemma lock_of_stake p x r : req_stake r = x -> req_unstake r = 0 -> mkMP (mkRA (ra_tot (mp_s p)) (ra_res (mp_s p) + x)) (mp_u p) = lock_of p r.
  Proof. intros <- H. unfold lock_of. rewrite H, Z.add_0_r. destruct p as [? [? ?]]; reflexivity. Qed.
  Lemma lock_of_unstake p x r : req_unstake r = x -> req_stake r = 0 -> mkMP (mp_s p) (mkRA (ra_tot (mp_u p)) (ra_res (mp_u p) + x)) = lock_of p r.
  Proof. intros <- H. unfold lock_of. rewrite H, Z.add_0_r. destruct p as [[? ?] ?]; reflexivity. Qed.
  Lemma lock_of_none p r : req_unstake r = 0 -> req_stake r = 0 -> p = lock_of p r.
  Proof. intros H1 H2. unfold lock_of. rewrite H1, H2, !Z.add_0_r. destruct p as [[? ?] [? ?]]; reflexivity. Qed.
  Lemma send_stake_eff s k r x s' : req_idx r ∈ lc_idx C -> req_stake r = x -> req_unstake r = 0 -> 0 <= x ->
    (let* p := lock_stake (ls_pool s) x in send C E (st_ls_pool s p) k r) = Ok s' -> send_eff s r s'.
  Proof.
    intros Hk H1 H2 Hx H. bstep H p E1. apply lock_stake_ok in E1 as [-> E1]. rewrite (lock_of_stake _ _ r H1 H2) in H.
    apply send_ok in H as (L & fee & F0 & _ & _ & B & I & W & ->). split; [exact Hk|]. exists L, fee. split; [exact F0|]. split; [lia|]. split; [lia|].
    split; [intros _; unfold locked_stake, pool_stake; lia|]. split; [lia|]. split; [exact B|]. split; [exact I|]. split; [exact W|]. reflexivity.
  Qed.
  Lemma send_unstake_eff s k r x s' : req_idx r ∈ lc_idx C -> req_unstake r = x -> req_stake r = 0 -> 0 <= x ->
    (let* p := lock_unstake (ls_pool s) x in send C E (st_ls_pool s p) k r) = Ok s' -> send_eff s r s'.
  Proof.
    intros Hk H1 H2 Hx H. bstep H p E1. apply lock_unstake_ok in E1 as [-> E1]. rewrite (lock_of_unstake _ _ r H1 H2) in H.
    apply send_ok in H as (L & fee & F0 & _ & _ & B & I & W & ->). split; [exact Hk|]. exists L, fee. split; [exact F0|]. split; [lia|]. split; [lia|].
    split; [lia|]. split; [intros _; unfold locked_unstake, pool_unstake; lia|]. split; [exact B|]. split; [exact I|]. split; [exact W|]. reflexivity.
  Qed.
  Lemma send_none_eff s k r s' : req_idx r ∈ lc_idx C -> req_unstake r = 0 -> req_stake r = 0 -> send C E s k r = Ok s' -> send_eff s r s'.
  Proof.
    intros Hk H1 H2 H. apply send_ok in H as (L & fee & F0 & _ & _ & B & I & W & ->). split; [exact Hk|]. exists L, fee. split; [exact F0|]. split; [lia|]. split; [lia|].
    split; [lia|]. split; [lia|]. split; [exact B|]. split; [exact I|]. split; [exact W|]. rewrite <- (lock_of_none _ _ H1 H2). reflexivity.
  Qed.
End lsp.
