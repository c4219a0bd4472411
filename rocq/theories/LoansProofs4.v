(** * LoansProofs4: the exchange rate never decreases; reserves are always covered; what can change a position. *)
From Verif Require Import Base MapSum Ledger AmmModel LoansModel LoansSpec LoansProofs LoansProofs2 LoansProofs3.

Lemma fdiv_mono n n' s : 0 < s -> n <= n' -> n / s <= n' / s.
Proof. intros. apply Z.div_le_mono; lia. Qed.

Section rate.
  Context (C : loans_cfg) (P : policy).

  Lemma backing_put_acc s a m b : backing C (put_acc s a m) b =
    if decide (b = a) then bal (ln_led s) b (ln_acct C) + m_borrows m - m_res m else backing C s b.
  Proof. unfold backing, borrows_of, reserves_of. rewrite !acc_of_put. destruct (decide _); reflexivity. Qed.

  Definition grow (s s' : loans) : Prop := forall a, supply_of s' a = supply_of s a /\ backing C s a <= backing C s' a.
  Definition rok (s s' : loans) : Prop := forall a, 0 <= backing C s a ->
    0 <= backing C s' a /\
    (0 < supply_of s a -> 0 < supply_of s' a -> rate_of C s a <= rate_of C s' a) /\
    (supply_of s a = 0 -> 0 < supply_of s' a -> MIN_EXRATE <= rate_of C s' a).
  Lemma grow_refl s : grow s s. Proof. intros a. lia. Qed.
  Lemma grow_trans s1 s2 s3 : grow s1 s2 -> grow s2 s3 -> grow s1 s3.
  Proof. intros H1 H2 a. specialize (H1 a). specialize (H2 a). lia. Qed.
  Lemma grow_rate s s' a : grow s s' -> 0 < supply_of s a -> rate_of C s a <= rate_of C s' a.
  Proof. intros H Hp. destruct (H a) as [E H']. unfold rate_of. rewrite E. apply fdiv_mono; auto. pose proof FDIV_pos. nia. Qed.
  Lemma grow_rok s1 s2 s3 : grow s1 s2 -> rok s2 s3 -> rok s1 s3.
  Proof.
    intros H1 H2 a Hb. destruct (H1 a) as [E H']. destruct (H2 a ltac:(lia)) as (A & B & D). split; [exact A|]. split.
    - intros Hp Hp'. etransitivity; [apply (grow_rate s1 s2 a H1 Hp)|]. apply B; lia.
    - intros Hp Hp'. apply D; lia.
  Qed.
  Lemma rok_grow s1 s2 s3 : rok s1 s2 -> grow s2 s3 -> rok s1 s3.
  Proof.
    intros H1 H2 a Hb. destruct (H2 a) as [E H']. destruct (H1 a Hb) as (A & B & D). split; [lia|]. split.
    - intros Hp Hp'. etransitivity; [apply B; lia|]. apply (grow_rate s2 s3 a H2). lia.
    - intros Hp Hp'. etransitivity; [apply D; lia|]. apply (grow_rate s2 s3 a H2). lia.
  Qed.
  Lemma grow_is_rok s s' : grow s s' -> rok s s'.
  Proof.
    intros H a Hb. destruct (H a) as [E H']. split; [lia|]. split; [|lia]. intros Hp _. apply (grow_rate s s' a H Hp).
  Qed.
  Lemma grow_core s s' : core_eq s s' -> grow s s'.
  Proof. intros (R&E&X&Y&Z&->) a. split; [reflexivity|]. change (backing C (aux s R E X Y Z) a) with (backing C s a). lia. Qed.
  Lemma accrue_grow s a s' : linv0 s -> accrue C s a = Ok s' -> grow s s'.
  Proof.
    intros Hi H. pose proof (accrue_full C s a s' Hi H) as (X & Hs & Ha & Hn). intros b.
    destruct (decide (b = a)) as [->|E].
    - destruct Ha as (A1 & A2 & A3 & A4 & _). unfold supply_of, backing, borrows_of, reserves_of. split; [exact A1|].
      rewrite Hs. cbn. rewrite <- Hs. lia.
    - unfold supply_of, backing, borrows_of, reserves_of. rewrite Hn by auto. rewrite Hs. cbn. lia.
  Qed.
  (** token transfers that take nothing from the pallet account *)
  Lemma grow_led s L : (forall a, bal (ln_led s) a (ln_acct C) <= bal L a (ln_acct C)) -> grow s (st_led s L).
  Proof.
    intros H a. split; [reflexivity|]. unfold backing. cbn. specialize (H a).
    change (borrows_of (st_led s L) a) with (borrows_of s a). change (reserves_of (st_led s L) a) with (reserves_of s a). lia.
  Qed.
  Lemma transfer_in L a src dst amt ka L' : src <> ln_acct C -> 0 <= amt -> transfer P L a src dst amt ka = Ok L' ->
    forall b, bal L b (ln_acct C) <= bal L' b (ln_acct C).
  Proof.
    intros Hs Ha H b. apply transfer_spec in H as (H & _). rewrite H. unfold at_. repeat case_bool_decide; destruct_and?; subst; try lia; congruence.
  Qed.

  Lemma exrate_rate s a r : 0 < supply_of s a -> exrate C s a = Ok r -> r = rate_of C s a.
  Proof.
    intros Hp H. unfold exrate in H. apply calc_exrate_ok in H as [[H _]|(_ & -> & _)]; [unfold supply_of in Hp; lia|].
    reflexivity.
  Qed.
  Lemma exrate_zero s a r : supply_of s a = 0 -> exrate C s a = Ok r -> r = MIN_EXRATE.
  Proof.
    intros Hp H. unfold exrate in H. apply calc_exrate_ok in H as [[_ H]|(H & _)]; [exact H|]. unfold supply_of in Hp. congruence.
  Qed.
  Lemma rate_mul_le s a : 0 < supply_of s a -> rate_of C s a * supply_of s a <= backing C s a * FDIV.
  Proof. intros H. unfold rate_of. rewrite Z.mul_comm. apply Z.mul_div_le. lia. Qed.
  Lemma exrate_mul_le s a r : 0 <= supply_of s a -> 0 <= backing C s a -> exrate C s a = Ok r -> r * supply_of s a <= backing C s a * FDIV.
  Proof.
    intros Hp Hb Hr. destruct (Z.eq_dec (supply_of s a) 0) as [E|E].
    - rewrite E. pose proof FDIV_pos. nia.
    - rewrite (exrate_rate s a r) by (auto; lia). apply rate_mul_le. lia.
  Qed.

  Lemma mint_rok s w a amt s' : is_u128 amt -> w <> ln_acct C -> linv s -> do_mint C P s w a amt = Ok s' -> rok s s'.
  Proof.
    intros Ha Hw Hi H. apply do_mint_eff in H as (H0 & mk & s1 & R & E & X & Y & Z & r & v & L & Hm & _ & _ & Hacc & Hr & -> & Hr0 & Hv & HL & B1 & B2 & ->).
    eapply grow_rok; [eapply accrue_grow; [apply Hi|exact Hacc]|].
    apply accrue_linv in Hacc; auto. destruct Hacc as [Hi1 _]. pose proof (li_acc s1 Hi1 a) as (Hs & _).
    pose proof (exrate_pos C s1 a r Hr) as Hrp. rewrite MIN_VALID_val in Hrp.
    pose proof (transfer_spec _ _ _ _ _ _ _ _ HL) as (HB & _ & _).
    intros b Hb. rewrite backing_put_acc, supply_put_acc. cbn [m_supply m_borrows m_res set_supply put_dep st_led st_deps ln_led].
    unfold rate_of. rewrite backing_put_acc, supply_put_acc. cbn [m_supply m_borrows m_res set_supply put_dep st_led st_deps ln_led].
    rewrite HB. unfold at_. destruct (decide (b = a)) as [->|Ne].
    - rewrite bool_decide_false by intuition congruence. rewrite bool_decide_true by auto.
      set (v := amt * FDIV / r) in *. pose proof (exrate_mul_le s1 a r (proj1 Hs) Hb Hr) as Hq.
      assert (Hvr : r * v <= amt * FDIV). { apply Z.mul_div_le. lia. }
      replace (bal (ln_led s1) a (ln_acct C) - 0 + amt + m_borrows (acc_of s1 a) - m_res (acc_of s1 a)) with (backing C s1 a + amt)
        by (unfold backing, borrows_of, reserves_of; lia).
      assert (Hfin : r <= (backing C s1 a + amt) * FDIV / (supply_of s1 a + v)).
      { apply Z.div_le_lower_bound; [destruct Hs; lia|]. lia. }
      split; [destruct Ha; lia|]. split.
      + intros Hp _. fold (rate_of C s1 a). rewrite <- (exrate_rate s1 a r); auto.
      + intros Hp _. rewrite <- (exrate_zero s1 a r); auto.
    - 
      change (backing C (put_dep _ _ _ _) b) with (bal L b (ln_acct C) + borrows_of s1 b - reserves_of s1 b).
      change (supply_of (put_dep _ _ _ _) b) with (supply_of s1 b).
      rewrite HB. unfold at_. rewrite !bool_decide_false by intuition congruence.
      replace (bal (ln_led s1) b (ln_acct C) - 0 + 0 + borrows_of s1 b - reserves_of s1 b) with (backing C s1 b) by (unfold backing; lia).
      repeat split; lia.
  Qed.

  Lemma redeem_eff_rok s w a v x s' : 0 <= v -> linv s -> redeem_eff C P s w a v x s' -> rok s s'.
  Proof.
    intros Hv0 [Hi Hsum] (R & E & X & Y & Z & r & L & Hv & Hr & -> & Hx & Hc & Hc0 & Hd0 & Hs0 & _ & HL & ->).
    pose proof (li_acc s Hi a) as (Hs & _). pose proof (exrate_pos C s a r Hr) as Hrp. rewrite MIN_VALID_val in Hrp.
    pose proof (transfer_spec _ _ _ _ _ _ _ _ HL) as (HB & _ & _). destruct Hx as [Hx0 Hx1].
    set (s3 := put_dep_or_remove (aux s R E X Y Z) a w (mkDep (vouchers s a w - v) (is_collateral s a w))).
    assert (Hacc : forall b, acc_of s3 b = acc_of s b). { intros b. unfold s3, put_dep_or_remove. destruct (_ =? 0); reflexivity. }
    assert (Hsup : forall m b, supply_of (st_led (put_acc s3 a m) L) b = if decide (b = a) then m_supply m else supply_of s b).
    { intros m b. change (supply_of (st_led (put_acc s3 a m) L) b) with (supply_of (put_acc s3 a m) b). rewrite supply_put_acc.
      unfold supply_of. rewrite Hacc. reflexivity. }
    assert (Hback : forall b, backing C s b - (if decide (b = a) then v * r / FDIV else 0) <=
         backing C (st_led (put_acc s3 a (set_supply (acc_of s a) (supply_of s a - v))) L) b).
    { intros b. unfold backing. change (borrows_of (st_led ?y L) b) with (borrows_of y b). change (reserves_of (st_led ?y L) b) with (reserves_of y b).
      unfold borrows_of, reserves_of. rewrite !acc_of_put, Hacc. cbn [ln_led st_led]. rewrite HB. unfold at_.
      destruct (decide (b = a)) as [->|Ne]; cbn [set_supply m_borrows m_res].
      - rewrite (bool_decide_true (a = a /\ ln_acct C = ln_acct C)) by auto. case_bool_decide; lia.
      - rewrite !bool_decide_false by intuition congruence. lia. }
    assert (Hxm : (v * r / FDIV) * FDIV <= v * r). { rewrite Z.mul_comm. apply Z.mul_div_le. apply FDIV_pos. }
    intros b Hb. specialize (Hback b). unfold rate_of. rewrite !Hsup. cbn [m_supply set_supply].
    set (N' := backing C (st_led _ L) b) in *.
    destruct (decide (b = a)) as [->|Ne].
    - pose proof (exrate_mul_le s a r (proj1 Hs) Hb Hr) as Hq. pose proof FDIV_pos as HF.
      assert (Hfin : r * (supply_of s a - v) <= N' * FDIV).
      { transitivity ((backing C s a - v * r / FDIV) * FDIV); [nia|]. apply Z.mul_le_mono_nonneg_r; lia. }
      split; [nia|]. split.
      + intros Hp Hp'. fold (rate_of C s a). rewrite <- (exrate_rate s a r) by auto. apply Z.div_le_lower_bound; lia.
      + lia.
    - split; [lia|]. split; [|lia]. intros Hp _. apply fdiv_mono; auto. pose proof FDIV_pos. nia.
  Qed.
  Lemma redeem_all_eff_rok s w a sel s' x :
    (forall s2 r, linv s2 -> MIN_VALID_EXRATE <= r -> 0 <= sel s2 r) -> linv s -> redeem_all_eff C P s w a sel s' x -> rok s s'.
  Proof.
    intros Hsel Hi (mk & s1 & s2 & r & Hm & _ & Hacc & Hr & Hc & H).
    eapply grow_rok; [eapply accrue_grow; [apply Hi|exact Hacc]|].
    apply accrue_linv in Hacc; auto. assert (Hi2 : linv s2) by (eapply linv_core; eauto).
    eapply grow_rok; [apply grow_core; exact Hc|].
    eapply redeem_eff_rok; [|exact Hi2|exact H]. apply Hsel; auto. apply exrate_pos in Hr. lia.
  Qed.
  Lemma borrow_grow s w a amt s' : is_u128 amt -> w <> ln_acct C -> linv s -> do_borrow C P s w a amt = Ok s' -> grow s s'.
  Proof.
    intros Ha Hw Hi H. apply do_borrow_eff in H as (mk & s1 & R & E & X & Y & Z & b & val & L & Hm & _ & Hacc & Hcap & Hcash & Hval & Hliq & Hb & Hb1 & Hb2 & HL & ->).
    eapply grow_trans; [eapply accrue_grow; [apply Hi|exact Hacc]|].
    pose proof (transfer_spec _ _ _ _ _ _ _ _ HL) as (HB & _ & _).
    intros c. change (supply_of (st_led ?y L) c) with (supply_of y c). rewrite supply_put_acc.
    change (supply_of (put_debt _ _ _ _) c) with (supply_of s1 c). split; [destruct (decide _) as [->|]; reflexivity|].
    unfold backing. change (borrows_of (st_led ?y L) c) with (borrows_of y c). change (reserves_of (st_led ?y L) c) with (reserves_of y c).
    unfold borrows_of, reserves_of. rewrite !acc_of_put. cbn [ln_led st_led]. rewrite HB. unfold at_.
    change (acc_of (put_debt _ _ _ _) c) with (acc_of s1 c).
    destruct (decide (c = a)) as [->|Ne]; cbn [set_borrows m_borrows m_res].
    - rewrite (bool_decide_true (a = a /\ ln_acct C = ln_acct C)) by auto. rewrite bool_decide_false by intuition congruence. unfold borrows_of. lia.
    - rewrite !bool_decide_false by intuition congruence. lia.
  Qed.
  Lemma repay_eff_grow s w a amt s' : is_u128 amt -> w <> ln_acct C -> repay_eff C P s w a amt s' -> grow s s'.
  Proof.
    intros Ha Hw (R & E & X & Y & Z & b & L & Hb & Hle & Hb1 & HL & ->).
    pose proof (transfer_spec _ _ _ _ _ _ _ _ HL) as (HB & _ & _).
    intros c. rewrite supply_put_acc. change (supply_of (put_debt _ _ _ _) c) with (supply_of s c).
    split; [destruct (decide _) as [->|]; reflexivity|].
    rewrite backing_put_acc. cbn [ln_led put_debt st_debts st_led set_borrows m_borrows m_res].
    change (backing C (put_debt _ _ _ _) c) with (bal L c (ln_acct C) + borrows_of s c - reserves_of s c).
    rewrite HB. unfold at_, backing. destruct (decide (c = a)) as [->|Ne].
    - rewrite (bool_decide_true (a = a /\ ln_acct C = ln_acct C)) by auto. rewrite bool_decide_false by intuition congruence. unfold borrows_of, reserves_of. lia.
    - rewrite !bool_decide_false by intuition congruence. lia.
  Qed.
  Lemma repay_grow s w a amt s' : is_u128 amt -> w <> ln_acct C -> linv s -> do_repay C P s w a amt = Ok s' -> grow s s'.
  Proof.
    intros Ha Hw Hi H. apply do_repay_eff in H as (mk & s1 & Hm & _ & Hacc & H).
    eapply grow_trans; [eapply accrue_grow; [apply Hi|exact Hacc]|]. eapply repay_eff_grow; eauto.
  Qed.
  Lemma put_dep_grow s a w d : grow s (put_dep s a w d).
  Proof. intros b. split; [reflexivity|]. change (backing C (put_dep s a w d) b) with (backing C s b). lia. Qed.
  Lemma put_dep_rm_grow s a w d : grow s (put_dep_or_remove s a w d).
  Proof. unfold put_dep_or_remove. destruct (_ =? 0); [|apply put_dep_grow]. intros b. split; [reflexivity|]. change (backing C (st_deps _ _) b) with (backing C s b). lia. Qed.
  Lemma liq_eff_grow s liq w la amt ca s' : is_u128 amt -> liq <> ln_acct C -> liq_eff C P s liq w la amt ca s' -> grow s s'.
  Proof.
    intros Ha Hl (mk & d & r & rv & lv & cp & under & k & inc & b & R & E & X & Y & Z & L & Hm & _ & Hne & _ & Hd & _ & _ & _ & _ & _ & _ & HL & Hb & Hb1 & Hb2 & s5 & Hs5 & r' & R' & E' & X' & Y' & Z' & _ & Hk & Hkd & Hinc & Hki & -> & Hv1 & Hv2).
    cbn zeta. eapply grow_trans; [|apply put_dep_grow]. eapply grow_trans; [|apply put_dep_grow]. eapply grow_trans; [|apply put_dep_grow].
    eapply grow_trans; [|apply grow_core; exists R', E', X', Y', Z'; reflexivity]. subst s5.
    pose proof (transfer_spec _ _ _ _ _ _ _ _ HL) as (HB & _ & _).
    intros c. rewrite supply_put_acc. change (supply_of (put_debt _ _ _ _) c) with (supply_of s c).
    split; [destruct (decide _) as [->|]; reflexivity|].
    rewrite backing_put_acc. cbn [ln_led put_debt st_debts st_led set_borrows m_borrows m_res].
    change (backing C (put_debt _ _ _ _) c) with (bal L c (ln_acct C) + borrows_of s c - reserves_of s c).
    rewrite HB. unfold at_, backing. destruct (decide (c = la)) as [->|Ne].
    - rewrite (bool_decide_true (la = la /\ ln_acct C = ln_acct C)) by auto. rewrite bool_decide_false by intuition congruence. unfold borrows_of, reserves_of. lia.
    - rewrite !bool_decide_false by intuition congruence. lia.
  Qed.
  Lemma liquidate_grow s liq w la amt ca s' : is_u128 amt -> liq <> ln_acct C -> linv s -> liquidate C P s liq w la amt ca = Ok s' -> grow s s'.
  Proof.
    intros Ha Hl Hi H. unfold liquidate in H. bstep H u0 E0. bstep H s1 E1. bstep H s2 E2. apply do_liquidate_eff in H.
    eapply grow_trans; [eapply accrue_grow; [apply Hi|exact E1]|].
    pose proof (accrue_linv C _ _ _ Hi E1) as Hi1.
    eapply grow_trans; [eapply accrue_grow; [apply Hi1|exact E2]|]. eapply liq_eff_grow; eauto.
  Qed.

  Lemma claim_grow s1 w s' : rew_acct C <> ln_acct C -> pay_reward C P s1 w = Ok s' -> grow s1 s'.
  Proof.
    intros Hc H. unfold pay_reward in H. destruct (0 <? racc_of s1 w) eqn:Ez; [|injection H as <-; apply grow_refl].
    bstep H L E2. injection H as <-. eapply grow_trans; [|apply (grow_core (st_led s1 L)); eexists _, _, _, _, _; reflexivity].
    apply grow_led. eapply transfer_in; [exact Hc| |exact E2]. lia.
  Qed.
  Ltac gtriv := intros ?c; split; [reflexivity|];
    match goal with |- backing ?C0 ?x ?b <= backing ?C0 ?y ?b => change (backing C0 y b) with (backing C0 x b); lia end.

  Lemma exec_rok s c s' : cfg_ok C -> call_ok C c -> linv s -> loans_exec C P s c = Ok s' -> rok s s'.
  Proof.
    intros (Hc1 & Hc2 & Hc3) Hc Hi H. destruct c; cbn in Hc, H.
    - apply grow_is_rok. unfold add_market in H. bstep H u0 E0. bstep H u1 E1. bstep H u2 E2. bstep H u3 E3. bstep H u4 E4. bstep H u5 E5.
      bstep H u6 E6. bstep H u7 E7. bstep H u8 E8. bstep H u9 E9. injection H as <-.
      intros b. rewrite supply_put_acc, backing_put_acc. cbn [m_supply m_borrows m_res].
      destruct (decide _) as [->|]; (split; [reflexivity|]).
      + unfold backing, borrows_of, reserves_of. cbn [ln_led st_under st_mkts]. unfold acc_of. cbn. lia.
      + unfold backing, borrows_of, reserves_of. cbn [ln_led st_under st_mkts]. unfold acc_of. cbn. lia.
    - apply grow_is_rok. unfold activate_market in H. bstep H u0 E0. bstep H mk E1. injection H as <-. gtriv.
    - apply grow_is_rok. unfold update_rate_model in H. bstep H u0 E0. bstep H u1 E2. bstep H mk E1. injection H as <-. gtriv.
    - apply grow_is_rok. unfold update_market in H. bstep H u0 E0. bstep H mk E1. bstep H u1 E2. bstep H u2 E3. bstep H u3 E4. bstep H u4 E5.
      injection H as <-. gtriv.
    - apply grow_is_rok. unfold force_update_market in H. bstep H u0 E0. bstep H u1 E2. bstep H u2 E3. bstep H mk0 E1. injection H as <-. gtriv.
    - apply grow_is_rok. unfold add_reward in H. bstep H u0 E0. bstep H L E1. injection H as <-. apply grow_led.
      eapply transfer_in; [| |exact E1]; apply Hc.
    - apply grow_is_rok. unfold withdraw_missing in H. bstep H u0 E0. bstep H u1 E2. bstep H L E1. injection H as <-. apply grow_led.
      eapply transfer_in; [| |exact E1]; [congruence|apply Hc].
    - apply grow_is_rok. unfold update_speed in H. bstep H u0 E0. bstep H u1 E1. bstep H s1 E2.
      assert (Hg1 : core_eq s s1).
      { destruct (_ =? _) in E2; [injection E2 as <-; apply core_refl|]. bstep E2 t E3. injection E2 as <-.
        eapply core_trans; [eapply upd_supply_index_core; eauto|apply core_rew]. }
      apply grow_core. eapply core_trans; [exact Hg1|].
      destruct (_ =? _) in H; [injection H as <-; apply core_refl|]. bstep H t E3. injection H as <-.
      eapply core_trans; [eapply upd_borrow_index_core; eauto|apply core_rew].
    - apply grow_is_rok. unfold claim_reward in H. bstep H s1 E1. apply collect_all_core in E1.
      eapply grow_trans; [apply grow_core; exact E1|]. eapply claim_grow; eauto.
    - apply grow_is_rok. unfold claim_reward_for in H. bstep H s1 E1. apply collect_reward_core in E1.
      eapply grow_trans; [apply grow_core; exact E1|]. eapply claim_grow; eauto.
    - exact (mint_rok s w a amt s' (proj1 Hc) (proj2 Hc) Hi H).
    - apply fst_res_ok in H as [x H]. unfold redeem in H. bstep H u0 E0. apply do_redeem_eff in H.
      eapply redeem_all_eff_rok; [|exact Hi|exact H]. apply sel_amt_ok. apply Hc.
    - apply fst_res_ok in H as [x H]. apply do_redeem_eff in H.
      eapply redeem_all_eff_rok; [|exact Hi|exact H]. apply sel_amt_ok. apply Hc.
    - apply fst_res_ok in H as [x H]. apply do_redeem_all_eff in H.
      eapply redeem_all_eff_rok; [|exact Hi|exact H]. apply sel_all_ok.
    - apply grow_is_rok. exact (borrow_grow s w a amt s' (proj1 Hc) (proj2 Hc) Hi H).
    - apply grow_is_rok. exact (repay_grow s w a amt s' (proj1 Hc) (proj2 Hc) Hi H).
    - apply grow_is_rok. unfold repay_all in H. bstep H mk E1. bstep H s1 E2. bstep H b E3.
      eapply grow_trans; [eapply accrue_grow; [apply Hi|exact E2]|].
      eapply repay_grow; [eapply borrow_balance_u128; eauto|exact Hc|eapply accrue_linv; eauto|exact H].
    - apply grow_is_rok. unfold collateral_asset in H. bstep H u0 E0. bstep H d E1. bstep H u1 E2.
      apply do_collateral_eff in H as (mk & d' & _ & _ & Hd & -> & _). apply put_dep_grow.
    - apply grow_is_rok. apply do_collateral_eff in H as (mk & d' & _ & _ & Hd & -> & _). apply put_dep_grow.
    - apply grow_is_rok. exact (liquidate_grow s liq w la amt ca s' (proj1 Hc) (proj2 Hc) Hi H).
    - apply grow_is_rok. apply transfer_pt_unfold in H as (R & E & X & Y & Z & u & red & _ & _ & _ & Hge & -> & Hv).
      cbn zeta. eapply grow_trans; [|apply put_dep_grow]. eapply grow_trans; [|apply put_dep_rm_grow].
      apply grow_core. exists R, E, X, Y, Z. reflexivity.
    - (* add_reserves *) apply grow_is_rok. unfold add_reserves in H. bstep H u0 E0. bstep H mk E1. bstep H L E2. bstep H t E3. injection H as <-.
      destruct E3 as [-> E3]. pose proof (transfer_spec _ _ _ _ _ _ _ _ E2) as (HB & _ & _). destruct Hc as [Ha Hp].
      intros b. rewrite supply_put_acc, backing_put_acc. cbn [m_supply m_borrows m_res set_reserves ln_led st_led].
      change (backing C (st_led s L) b) with (bal L b (ln_acct C) + borrows_of s b - reserves_of s b). change (supply_of (st_led s L) b) with (supply_of s b).
      rewrite HB. unfold at_, backing. destruct (decide (b = a)) as [->|Ne]; (split; [reflexivity|]).
      + rewrite (bool_decide_true (a = a /\ ln_acct C = ln_acct C)) by auto. rewrite bool_decide_false by intuition congruence. unfold borrows_of, reserves_of. lia.
      + rewrite !bool_decide_false by intuition congruence. lia.
    - (* reduce_reserves *) apply grow_is_rok. unfold reduce_reserves in H. bstep H u0 E0. bstep H mk E1. bstep H u1 E4. bstep H t E3. bstep H L E2. injection H as <-.
      destruct E3 as [-> E3]. pose proof (transfer_spec _ _ _ _ _ _ _ _ E2) as (HB & _ & _). destruct Hc as [Ha _].
      intros b. rewrite supply_put_acc, backing_put_acc. cbn [m_supply m_borrows m_res set_reserves ln_led st_led].
      change (backing C (st_led s L) b) with (bal L b (ln_acct C) + borrows_of s b - reserves_of s b). change (supply_of (st_led s L) b) with (supply_of s b).
      rewrite HB. unfold at_, backing. destruct (decide (b = a)) as [->|Ne]; (split; [reflexivity|]).
      + rewrite (bool_decide_true (a = a /\ ln_acct C = ln_acct C)) by auto. case_bool_decide; unfold borrows_of, reserves_of; lia.
      + rewrite !bool_decide_false by intuition congruence. lia.
    - (* reduce_incentive *) unfold reduce_incentive in H. bstep H u0 E0. bstep H u1 E1. bstep H mk E2. bstep H r E3. bstep H v E4.
      bstep H p E5. destruct p as [s1 x]. bstep H L E6. injection H as <-.
      unfold to_voucher in E4. apply ok_or_ok, f_checked_div_some in E4 as (_ & _ & E4).
      apply redeem_voucher_eff in E5. assert (Hx : is_u128 x) by (destruct E5 as (?&?&?&?&?&?&?&?&?&?&Hx&?); exact Hx).
      apply redeem_eff_rok in E5; auto; [|lia]. eapply rok_grow; [exact E5|]. apply grow_led.
      eapply transfer_in; [| |exact E6]; [congruence|apply Hx].
    - apply grow_is_rok. unfold update_free in H. bstep H u0 E0. injection H as <-. gtriv.
    - apply fst_res_ok in H as [x H]. unfold force_redeem, redeem in H. bstep H u0 E0. bstep H u1 E1. apply do_redeem_eff in H.
      eapply redeem_all_eff_rok; [|exact Hi|exact H]. apply sel_amt_ok. apply Hc.
    - apply fst_res_ok in H as [x H]. unfold force_redeem_all in H. bstep H u0 E0. apply do_redeem_all_eff in H.
      eapply redeem_all_eff_rok; [|exact Hi|exact H]. apply sel_all_ok.
    - apply grow_is_rok. bstep H s1 E1. bstep H b E2. injection H as <-. eapply accrue_grow; [apply Hi|exact E1].
  Qed.

  Lemma step_linv s s' : linv s -> loans_step C P s s' -> linv s'.
  Proof.
    intros Hi H. destruct H as [c s' Hc H|L HL Hb|p Hp|t b Ht Hb].
    - eapply exec_linv; eauto.
    - apply linv_led; auto.
    - destruct Hi as [[H1 H2 H3 H4 H5 H6 H7 H8 H9] Hs]. split; [constructor; assumption|exact Hs].
    - destruct Hi as [[H1 H2 H3 H4 H5 H6 H7 H8 H9] Hs]. split; [constructor; try assumption|exact Hs].
      + intros a. specialize (H6 a). change (acc_of (st_clock s t b) a) with (acc_of s a). cbn. lia.
      + cbn. lia.
  Qed.
  Lemma step_rok s s' : cfg_ok C -> linv s -> loans_step C P s s' -> rok s s'.
  Proof.
    intros HC Hi H. destruct H as [c s' Hc H|L HL Hb|p Hp|t b Ht Hb].
    - eapply exec_rok; eauto.
    - apply grow_is_rok, grow_led, Hb.
    - apply grow_is_rok. gtriv.
    - apply grow_is_rok. gtriv.
  Qed.
  Lemma genesis_linv s : loans_genesis s -> linv s.
  Proof.
    intros (G1 & G2 & G3 & G4 & G5 & G6 & G7 & G8 & G9 & G10 & G11 & G12 & G13 & G14 & G15).
    assert (Ha : forall a, acc_of s a = macc0). { intros a. unfold acc_of. rewrite G3, lookup_empty. reflexivity. }
    assert (Hd : forall a w, dep_of s a w = dep0). { intros a w. unfold dep_of. rewrite G5, lookup_empty. reflexivity. }
    assert (Hb : forall a w, debt_of s a w = debt0). { intros a w. unfold debt_of. rewrite G6, lookup_empty. reflexivity. }
    pose proof U128MAX_pos. split; [constructor|]; auto.
    - intros a w. unfold vouchers. rewrite Hd. cbn. lia.
    - intros a. unfold supply_of, borrows_of, reserves_of, index_of, is_u128. rewrite Ha. cbn. lia.
    - intros a mk Hm. rewrite G1, lookup_empty in Hm. discriminate.
    - intros a w. unfold index_of. rewrite Hb, Ha. cbn. lia.
    - intros a. rewrite Ha. cbn. lia.
    - intros a _. unfold index_of. rewrite Ha. reflexivity.
    - intros a. unfold voucher_sum, supply_of. rewrite Ha, G5, msum_empty. reflexivity.
  Qed.
  Lemma steps_linv s0 s : linv s0 -> loans_steps C P s0 s -> linv s.
  Proof. intros Hi H. induction H as [|s1 s2 s3 H12 IH H23]; [exact Hi|]. eapply step_linv; [apply IH; exact Hi|exact H23]. Qed.
  Lemma reachable_linv s : loans_reachable C P s -> linv s.
  Proof. intros (s0 & G & H). eapply steps_linv; [apply genesis_linv; exact G|exact H]. Qed.
  Lemma steps_backing s0 s a : cfg_ok C -> linv s0 -> 0 <= backing C s0 a -> loans_steps C P s0 s -> 0 <= backing C s a.
  Proof.
    intros HC Hi Hb H. induction H as [|s1 s2 s3 H12 IH H23]; auto.
    assert (Hi2 : linv s2) by (eapply steps_linv; eauto). apply (step_rok s2 s3 HC Hi2 H23 a). apply IH; auto.
  Qed.
  Lemma reachable_backing s a : cfg_ok C -> loans_reachable C P s -> 0 <= backing C s a.
  Proof.
    intros HC (s0 & G & H). eapply steps_backing; [exact HC|apply genesis_linv; exact G| |exact H].
    destruct G as (_ & _ & G3 & _ & _ & _ & _ & _ & _ & _ & _ & [HW _] & _).
    unfold backing, borrows_of, reserves_of, acc_of. rewrite G3, lookup_empty. cbn. specialize (HW a (ln_acct C)). lia.
  Qed.
End rate.
