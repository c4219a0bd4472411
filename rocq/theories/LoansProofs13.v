(** * LoansProofs13: a market whose exchange rate has reached 1 is frozen for ever; repayment and withdrawal go through otherwise. *)
From Verif Require Import Base MapSum Ledger AmmModel LoansModel LoansSpec LoansSpec2 LoansProofs LoansProofs2 LoansProofs3 LoansProofs4 LoansProofs5.

Section freeze.
  Context (C : loans_cfg) (P : policy).

  Ltac gtriv := intros ?c; split; [reflexivity|];
    match goal with |- backing ?C0 ?x ?b <= backing ?C0 ?y ?b => change (backing C0 y b) with (backing C0 x b); lia end.
  Lemma exec_grow s c s' : cfg_ok C -> call_ok C c -> linv s -> moves_supply c = None -> loans_exec C P s c = Ok s' -> grow C s s'.
  Proof.
    intros (Hc1 & Hc2 & Hc3) Hc Hi Hn H. destruct c; cbn in Hc, H; cbn [moves_supply] in Hn.
    - unfold add_market in H. bstep H u0 E0. bstep H u1 E1. bstep H u2 E2. bstep H u3 E3. bstep H u4 E4. bstep H u5 E5.
      bstep H u6 E6. bstep H u7 E7. bstep H u8 E8. bstep H u9 E9. injection H as <-.
      intros b. rewrite supply_put_acc, backing_put_acc. cbn [m_supply m_borrows m_res].
      destruct (decide _) as [->|]; (split; [reflexivity|]).
      + unfold backing, borrows_of, reserves_of. cbn [ln_led st_under st_mkts]. unfold acc_of. cbn. lia.
      + unfold backing, borrows_of, reserves_of. cbn [ln_led st_under st_mkts]. unfold acc_of. cbn. lia.
    - unfold activate_market in H. bstep H u0 E0. bstep H mk E1. injection H as <-. gtriv.
    - unfold update_rate_model in H. bstep H u0 E0. bstep H u1 E2. bstep H mk E1. injection H as <-. gtriv.
    - unfold update_market in H. bstep H u0 E0. bstep H mk E1. bstep H u1 E2. bstep H u2 E3. bstep H u3 E4. bstep H u4 E5.
      injection H as <-. gtriv.
    - unfold force_update_market in H. bstep H u0 E0. bstep H u1 E2. bstep H u2 E3. bstep H mk0 E1. injection H as <-. gtriv.
    - unfold add_reward in H. bstep H u0 E0. bstep H L E1. injection H as <-. apply grow_led.
      eapply transfer_in; [| |exact E1]; apply Hc.
    - unfold withdraw_missing in H. bstep H u0 E0. bstep H u1 E2. bstep H L E1. injection H as <-. apply grow_led.
      eapply transfer_in; [| |exact E1]; [congruence|apply Hc].
    - unfold update_speed in H. bstep H u0 E0. bstep H u1 E1. bstep H s1 E2.
      assert (Hg1 : core_eq s s1).
      { destruct (_ =? _) in E2; [injection E2 as <-; apply core_refl|]. bstep E2 t E3. injection E2 as <-.
        eapply core_trans; [eapply upd_supply_index_core; eauto|apply core_rew]. }
      apply grow_core. eapply core_trans; [exact Hg1|].
      destruct (_ =? _) in H; [injection H as <-; apply core_refl|]. bstep H t E3. injection H as <-.
      eapply core_trans; [eapply upd_borrow_index_core; eauto|apply core_rew].
    - unfold claim_reward in H. bstep H s1 E1. apply collect_all_core in E1.
      eapply grow_trans; [apply grow_core; exact E1|]. eapply claim_grow; eauto.
    - unfold claim_reward_for in H. bstep H s1 E1. apply collect_reward_core in E1.
      eapply grow_trans; [apply grow_core; exact E1|]. eapply claim_grow; eauto.
    - discriminate Hn.
    - discriminate Hn.
    - discriminate Hn.
    - discriminate Hn.
    - exact (borrow_grow C P s w a amt s' (proj1 Hc) (proj2 Hc) Hi H).
    - exact (repay_grow C P s w a amt s' (proj1 Hc) (proj2 Hc) Hi H).
    - unfold repay_all in H. bstep H mk E1. bstep H s1 E2. bstep H b E3.
      eapply grow_trans; [eapply accrue_grow; [apply Hi|exact E2]|].
      eapply repay_grow; [eapply borrow_balance_u128; eauto|exact Hc|eapply accrue_linv; eauto|exact H].
    - unfold collateral_asset in H. bstep H u0 E0. bstep H d E1. bstep H u1 E2.
      apply do_collateral_eff in H as (mk & d' & _ & _ & Hd & -> & _). apply put_dep_grow.
    - apply do_collateral_eff in H as (mk & d' & _ & _ & Hd & -> & _). apply put_dep_grow.
    - exact (liquidate_grow C P s liq w la amt ca s' (proj1 Hc) (proj2 Hc) Hi H).
    - apply transfer_pt_unfold in H as (R & E & X & Y & Z & u & red & _ & _ & _ & Hge & -> & Hv).
      cbn zeta. eapply grow_trans; [|apply put_dep_grow]. eapply grow_trans; [|apply put_dep_rm_grow].
      apply grow_core. exists R, E, X, Y, Z. reflexivity.
    - (* add_reserves *) unfold add_reserves in H. bstep H u0 E0. bstep H mk E1. bstep H L E2. bstep H t E3. injection H as <-.
      destruct E3 as [-> E3]. pose proof (transfer_spec _ _ _ _ _ _ _ _ E2) as (HB & _ & _). destruct Hc as [Ha Hp].
      intros b. rewrite supply_put_acc, backing_put_acc. cbn [m_supply m_borrows m_res set_reserves ln_led st_led].
      change (backing C (st_led s L) b) with (bal L b (ln_acct C) + borrows_of s b - reserves_of s b). change (supply_of (st_led s L) b) with (supply_of s b).
      rewrite HB. unfold at_, backing. destruct (decide (b = a)) as [->|Ne]; (split; [reflexivity|]).
      + rewrite (bool_decide_true (a = a /\ ln_acct C = ln_acct C)) by auto. rewrite bool_decide_false by intuition congruence. unfold borrows_of, reserves_of. lia.
      + rewrite !bool_decide_false by intuition congruence. lia.
    - (* reduce_reserves *) unfold reduce_reserves in H. bstep H u0 E0. bstep H mk E1. bstep H u1 E4. bstep H t E3. bstep H L E2. injection H as <-.
      destruct E3 as [-> E3]. pose proof (transfer_spec _ _ _ _ _ _ _ _ E2) as (HB & _ & _). destruct Hc as [Ha _].
      intros b. rewrite supply_put_acc, backing_put_acc. cbn [m_supply m_borrows m_res set_reserves ln_led st_led].
      change (backing C (st_led s L) b) with (bal L b (ln_acct C) + borrows_of s b - reserves_of s b). change (supply_of (st_led s L) b) with (supply_of s b).
      rewrite HB. unfold at_, backing. destruct (decide (b = a)) as [->|Ne]; (split; [reflexivity|]).
      + rewrite (bool_decide_true (a = a /\ ln_acct C = ln_acct C)) by auto. case_bool_decide; unfold borrows_of, reserves_of; lia.
      + rewrite !bool_decide_false by intuition congruence. lia.
    - discriminate Hn.
    - unfold update_free in H. bstep H u0 E0. injection H as <-. gtriv.
    - discriminate Hn.
    - discriminate Hn.
    - bstep H s1 E1. bstep H b E2. injection H as <-. eapply accrue_grow; [apply Hi|exact E1].
  Qed.

  (** *** the exchange rate has reached 1: the pallet refuses to compute it *)
  Notation frozen := (frozen C).
  Notation stuck := (stuck C).
  Lemma frozen_exrate s a r : frozen s a -> exrate C s a <> Ok r.
  Proof.
    intros [H1 H2] H. unfold exrate in H. apply calc_exrate_ok in H as [[H _]|(_ & Hx & _ & H)]; [unfold supply_of in H1; lia|].
    rewrite MAX_EXRATE_val in H. fold (supply_of s a) (borrows_of s a) (reserves_of s a) in Hx. unfold cash in Hx. fold (backing C s a) in Hx.
    assert (10 ^ 18 <= r); [|lia]. rewrite Hx. apply Z.div_le_lower_bound; [lia|]. rewrite FDIV_val. lia.
  Qed.
  Lemma frozen_grow s s' a : grow C s s' -> frozen s a -> frozen s' a.
  Proof. intros H [H1 H2]. destruct (H a) as [E H3]. unfold LoansSpec2.frozen. lia. Qed.
  Lemma frozen_rok s s' a : rok C s s' -> supply_of s' a = supply_of s a -> frozen s a -> frozen s' a.
  Proof.
    intros H E [H1 H2]. destruct (H a ltac:(lia)) as (_ & H3 & _). specialize (H3 H1 ltac:(lia)). unfold LoansSpec2.frozen. split; [lia|]. rewrite E. unfold rate_of in H3. rewrite E in H3.
    assert (FDIV <= backing C s a * FDIV / supply_of s a). { apply Z.div_le_lower_bound; [lia|]. pose proof FDIV_pos. nia. }
    pose proof (Z.mul_div_le (backing C s' a * FDIV) (supply_of s a) H1). pose proof FDIV_pos. nia.
  Qed.
  Lemma frozen_accrue s a s1 : linv s -> frozen s a -> accrue C s a = Ok s1 -> frozen s1 a.
  Proof. intros Hi F H. eapply frozen_grow; [eapply accrue_grow; [apply Hi|exact H]|exact F]. Qed.

  Lemma mint_frozen s w a amt s' b : linv s -> frozen s b -> do_mint C P s w a amt = Ok s' -> a <> b /\ supply_of s' b = supply_of s b.
  Proof.
    intros Hi F H. apply do_mint_eff in H as (H0 & mk & s1 & R & E & X & Y & Z & r & v & L & Hm & _ & _ & Hacc & Hr & -> & Hr0 & Hv & HL & B1 & B2 & ->).
    assert (a <> b). { intros ->. exact (frozen_exrate s1 b r (frozen_accrue s b s1 Hi F Hacc) Hr). }
    split; [auto|]. rewrite supply_put_acc. destruct (decide (b = a)); [congruence|]. change (supply_of (put_dep _ _ _ _) b) with (supply_of s1 b).
    apply (accrue_grow C s a s1 (proj1 Hi) Hacc b).
  Qed.
  Lemma redeem_eff_frozen s w a v x s' b : frozen s b -> redeem_eff C P s w a v x s' -> a <> b /\ supply_of s' b = supply_of s b.
  Proof.
    intros F (R & E & X & Y & Z & r & L & Hv & Hr & -> & Hx & Hc & Hc0 & Hd0 & Hs0 & _ & HL & ->).
    assert (a <> b). { intros ->. exact (frozen_exrate s b r F Hr). }
    split; [auto|]. change (supply_of (st_led ?y L) b) with (supply_of y b). rewrite supply_put_acc. destruct (decide (b = a)); [congruence|].
    unfold put_dep_or_remove. destruct (_ =? 0); reflexivity.
  Qed.
  Lemma redeem_all_frozen s w a sel s' x b : linv s -> frozen s b -> redeem_all_eff C P s w a sel s' x -> a <> b /\ supply_of s' b = supply_of s b.
  Proof.
    intros Hi F (mk & s1 & s2 & r & Hm & _ & Hacc & Hr & Hc & H). pose proof (accrue_grow C s a s1 (proj1 Hi) Hacc) as G.
    pose proof (grow_core C s1 s2 Hc) as G2. pose proof (grow_trans C _ _ _ G G2) as G3.
    destruct (redeem_eff_frozen s2 w a _ x s' b (frozen_grow _ _ _ G3 F) H) as [H1 H2]. split; [auto|]. rewrite H2. apply G3.
  Qed.
  Lemma exec_frozen s c s' b : cfg_ok C -> call_ok C c -> linv s -> frozen s b -> loans_exec C P s c = Ok s' ->
    moves_supply c <> Some b /\ supply_of s' b = supply_of s b /\ frozen s' b.
  Proof.
    intros HC Hc Hi F H. pose proof (exec_rok C P s c s' HC Hc Hi H) as Hr.
    assert (moves_supply c <> Some b /\ supply_of s' b = supply_of s b) as [H1 H2]; [|split; [auto|split; [auto|eapply frozen_rok; eauto]]].
    destruct (moves_supply c) as [a|] eqn:Em; [|split; [discriminate|]; apply (exec_grow s c s' HC Hc Hi Em H b)].
    assert (a <> b /\ supply_of s' b = supply_of s b) as [Q1 Q2]; [|split; [congruence|auto]].
    destruct c; cbn in Em; try discriminate Em; injection Em as ->; cbn in H.
    - eapply mint_frozen; eauto.
    - apply fst_res_ok in H as [x H]. unfold redeem in H. bstep H u0 E0. apply do_redeem_eff in H. eapply redeem_all_frozen; eauto.
    - apply fst_res_ok in H as [x H]. apply do_redeem_eff in H. eapply redeem_all_frozen; eauto.
    - apply fst_res_ok in H as [x H]. apply do_redeem_all_eff in H. eapply redeem_all_frozen; eauto.
    - unfold reduce_incentive in H. bstep H u0 E0. bstep H u1 E1. bstep H mk E2. bstep H r E3. bstep H v E4.
      bstep H p E5. destruct p as [s1 x]. bstep H L E6. injection H as <-. apply redeem_voucher_eff in E5.
      change (supply_of (st_led s1 L) b) with (supply_of s1 b). eapply redeem_eff_frozen; eauto.
    - apply fst_res_ok in H as [x H]. unfold force_redeem, redeem in H. bstep H u0 E0. bstep H u1 E1. apply do_redeem_eff in H. eapply redeem_all_frozen; eauto.
    - apply fst_res_ok in H as [x H]. unfold force_redeem_all in H. bstep H u0 E0. apply do_redeem_all_eff in H. eapply redeem_all_frozen; eauto.
  Qed.
  Lemma step_frozen s s' b : cfg_ok C -> linv s -> frozen s b -> loans_step C P s s' -> supply_of s' b = supply_of s b /\ frozen s' b.
  Proof.
    intros HC Hi F H. pose proof (step_rok C P s s' HC Hi H) as Hr. destruct H as [c s' Hc H|L HL Hb|p Hp|t b' Ht Hb].
    - destruct (exec_frozen s c s' b HC Hc Hi F H) as (_ & ? & ?). auto.
    - split; [reflexivity|]. eapply frozen_rok; [exact Hr|reflexivity|exact F].
    - split; [reflexivity|]. eapply frozen_rok; [exact Hr|reflexivity|exact F].
    - split; [reflexivity|]. eapply frozen_rok; [exact Hr|reflexivity|exact F].
  Qed.

  (** *** time has passed since the last interest update: interest can never be computed again *)
  Lemma stuck_accrue s a s1 : linv s -> stuck s a -> accrue C s a <> Ok s1.
  Proof.
    intros Hi [F HT] H. pose proof (frozen_accrue s a s1 Hi F H) as F1. apply accrue_unfold in H as [[H0 ->]|[(H0 & H1 & ->)|(H0 & H1 & H)]]; [lia|lia|].
    destruct H as (mk & util & rate & i & d & ex & Hm & _ & _ & _ & _ & Hx & _ & _ & _ & ->).
    apply (frozen_exrate _ a ex F1). unfold exrate. rewrite acc_of_put. destruct (decide (a = a)); [|congruence]. exact Hx.
  Qed.
  Lemma accrue_other s b s1 a : linv s -> b <> a -> accrue C s b = Ok s1 -> acc_of s1 a = acc_of s a /\ ln_time s1 = ln_time s.
  Proof. intros Hi Hne H. destruct (accrue_full C s b s1 (proj1 Hi) H) as (X & -> & _ & Hn). split; [apply Hn; auto|reflexivity]. Qed.
  Lemma stuck_accrue_other s b s1 a : linv s -> stuck s a -> accrue C s b = Ok s1 -> b <> a /\ acc_of s1 a = acc_of s a /\ ln_time s1 = ln_time s /\ stuck s1 a.
  Proof.
    intros Hi F H. assert (b <> a) as Hne. { intros ->. exact (stuck_accrue s a s1 Hi F H). }
    destruct (accrue_other s b s1 a Hi Hne H) as [E1 E2]. split; [auto|]. split; [auto|]. split; [auto|].
    destruct F as [F HT]. split; [eapply frozen_grow; [eapply accrue_grow; [apply Hi|exact H]|exact F]|]. rewrite E1, E2. exact HT.
  Qed.

  Lemma redeem_eff_time s w a v x s' : redeem_eff C P s w a v x s' -> ln_time s' = ln_time s /\ forall b, b <> a -> acc_of s' b = acc_of s b.
  Proof.
    intros (R & E & X & Y & Z & r & L & Hv & Hr & -> & Hx & Hc & Hc0 & Hd0 & Hs0 & _ & HL & ->).
    unfold put_dep_or_remove. destruct (_ =? 0); (split; [reflexivity|]); intros b Hb; change (acc_of (st_led ?y L) b) with (acc_of y b); rewrite acc_of_put;
      (destruct (decide (b = a)); [congruence|reflexivity]).
  Qed.
  Lemma redeem_all_time s w a sel s' x b : linv s -> stuck s b -> redeem_all_eff C P s w a sel s' x -> a <> b /\ acc_of s' b = acc_of s b /\ ln_time s' = ln_time s.
  Proof.
    intros Hi F (mk & s1 & s2 & r & Hm & _ & Hacc & Hr & (R & E & X & Y & Z & ->) & H).
    destruct (stuck_accrue_other s a s1 b Hi F Hacc) as (Hne & E1 & E2 & _). apply redeem_eff_time in H as [H1 H2].
    split; [auto|]. rewrite H1, H2 by auto. split; [exact E1|exact E2].
  Qed.
  Lemma exec_stuck s c s' a : cfg_ok C -> call_ok C c -> linv s -> stuck s a -> loans_exec C P s c = Ok s' ->
    ~ touches c a /\ supply_of s' a = supply_of s a /\ stuck s' a.
  Proof.
    intros HC Hc Hi F H. destruct (exec_frozen s c s' a HC Hc Hi (proj1 F) H) as (H1 & H2 & H3).
    assert (~ touches c a /\ m_last (acc_of s' a) = m_last (acc_of s a) /\ ln_time s' = ln_time s) as (H4 & H5 & H6);
      [|split; [auto|split; [auto|split; [auto|rewrite H5, H6; apply F]]]].
    assert (Hcore : forall t t', core_eq t t' -> m_last (acc_of t' a) = m_last (acc_of t a) /\ ln_time t' = ln_time t) by (intros t t' (R & E & X & Y & Z & ->); auto).
    unfold touches. destruct c; cbn in H, H1 |- *.
    - unfold add_market in H. bstep H u0 E0. bstep H u1 E1. bstep H u2 E2. bstep H u3 E3. bstep H u4 E4. bstep H u5 E5.
      bstep H u6 E6. bstep H u7 E7. bstep H u8 E8. bstep H u9 E9. injection H as <-. split; [intuition discriminate|]. split; [|reflexivity].
      rewrite acc_of_put. destruct (decide _) as [->|]; reflexivity.
    - unfold activate_market in H. bstep H u0 E0. bstep H mk E1. injection H as <-. split; [intuition discriminate|]. split; reflexivity.
    - unfold update_rate_model in H. bstep H u0 E0. bstep H u1 E2. bstep H mk E1. injection H as <-. split; [intuition discriminate|]. split; reflexivity.
    - unfold update_market in H. bstep H u0 E0. bstep H mk E1. bstep H u1 E2. bstep H u2 E3. bstep H u3 E4. bstep H u4 E5.
      injection H as <-. split; [intuition discriminate|]. split; reflexivity.
    - unfold force_update_market in H. bstep H u0 E0. bstep H u1 E2. bstep H u2 E3. bstep H mk0 E1. injection H as <-. split; [intuition discriminate|]. split; reflexivity.
    - unfold add_reward in H. bstep H u0 E0. bstep H L E1. injection H as <-. split; [intuition discriminate|]. split; reflexivity.
    - unfold withdraw_missing in H. bstep H u0 E0. bstep H u1 E2. bstep H L E1. injection H as <-. split; [intuition discriminate|]. split; reflexivity.
    - split; [intuition discriminate|]. unfold update_speed in H. bstep H u0 E0. bstep H u1 E1. bstep H s1 E2. apply Hcore.
      assert (Hg1 : core_eq s s1).
      { destruct (_ =? _) in E2; [injection E2 as <-; apply core_refl|]. bstep E2 t E3. injection E2 as <-.
        eapply core_trans; [eapply upd_supply_index_core; eauto|apply core_rew]. }
      eapply core_trans; [exact Hg1|].
      destruct (_ =? _) in H; [injection H as <-; apply core_refl|]. bstep H t E3. injection H as <-.
      eapply core_trans; [eapply upd_borrow_index_core; eauto|apply core_rew].
    - split; [intuition discriminate|]. unfold claim_reward in H. bstep H s1 E1. apply collect_all_core, Hcore in E1 as [Q1 Q2]. rewrite <- Q1, <- Q2.
      unfold pay_reward in H. destruct (_ <? _) in H; [|injection H as <-; auto]. bstep H L E2. injection H as <-. auto.
    - split; [intuition discriminate|]. unfold claim_reward_for in H. bstep H s1 E1. apply collect_reward_core, Hcore in E1 as [Q1 Q2]. rewrite <- Q1, <- Q2.
      unfold pay_reward in H. destruct (_ <? _) in H; [|injection H as <-; auto]. bstep H L E2. injection H as <-. auto.
    - apply do_mint_eff in H as (H0 & mk & s1 & R & E & X & Y & Z & r & v & L & Hm & _ & _ & Hacc & Hr & -> & Hr0 & Hv & HL & B1 & B2 & ->).
      destruct (stuck_accrue_other s a0 s1 a Hi F Hacc) as (Hne & Q1 & Q2 & _). split; [intuition congruence|].
      rewrite acc_of_put. destruct (decide (a = a0)); [congruence|]. change (acc_of (put_dep _ _ _ _) a) with (acc_of s1 a). rewrite Q1. split; [reflexivity|exact Q2].
    - apply fst_res_ok in H as [x H]. unfold redeem in H. bstep H u0 E0. apply do_redeem_eff in H. destruct (redeem_all_time _ _ _ _ _ _ a Hi F H) as (? & -> & ->). intuition congruence.
    - apply fst_res_ok in H as [x H]. apply do_redeem_eff in H. destruct (redeem_all_time _ _ _ _ _ _ a Hi F H) as (? & -> & ->). intuition congruence.
    - apply fst_res_ok in H as [x H]. apply do_redeem_all_eff in H. destruct (redeem_all_time _ _ _ _ _ _ a Hi F H) as (? & -> & ->). intuition congruence.
    - apply do_borrow_eff in H as (mk & s1 & R & E & X & Y & Z & b & val & L & Hm & _ & Hacc & Hcap & Hcash & Hval & Hliq & Hb & Hb1 & Hb2 & HL & ->).
      destruct (stuck_accrue_other s a0 s1 a Hi F Hacc) as (Hne & Q1 & Q2 & _). split; [intuition congruence|].
      change (acc_of (st_led ?y L) a) with (acc_of y a). rewrite acc_of_put. destruct (decide (a = a0)); [congruence|].
      change (acc_of (put_debt _ _ _ _) a) with (acc_of s1 a). rewrite Q1. split; [reflexivity|exact Q2].
    - apply do_repay_eff in H as (mk & s1 & Hm & _ & Hacc & (R & E & X & Y & Z & b & L & Hb & Hle & Hb1 & HL & ->)).
      destruct (stuck_accrue_other s a0 s1 a Hi F Hacc) as (Hne & Q1 & Q2 & _). split; [intuition congruence|].
      rewrite acc_of_put. destruct (decide (a = a0)); [congruence|]. change (acc_of (put_debt _ _ _ _) a) with (acc_of s1 a). rewrite Q1. split; [reflexivity|exact Q2].
    - unfold repay_all in H. bstep H mk0 E1. bstep H s0 E2. bstep H b0 E3.
      destruct (stuck_accrue_other s a0 s0 a Hi F E2) as (Hne & Q1 & Q2 & F0). pose proof (accrue_linv C _ _ _ Hi E2) as Hi0.
      apply do_repay_eff in H as (mk & s1 & Hm & _ & Hacc & (R & E & X & Y & Z & b & L & Hb & Hle & Hb1 & HL & ->)).
      destruct (stuck_accrue_other s0 a0 s1 a Hi0 F0 Hacc) as (_ & Q3 & Q4 & _). split; [intuition congruence|].
      rewrite acc_of_put. destruct (decide (a = a0)); [congruence|]. change (acc_of (put_debt _ _ _ _) a) with (acc_of s1 a). rewrite Q3, Q1. split; [reflexivity|].
      change (ln_time s1 = ln_time s). congruence.
    - split; [intuition discriminate|]. unfold collateral_asset in H. bstep H u0 E0. bstep H d E1. bstep H u1 E2. apply do_collateral_eff in H as (mk & d' & _ & _ & Hd & -> & _). split; reflexivity.
    - split; [intuition discriminate|]. apply do_collateral_eff in H as (mk & d' & _ & _ & Hd & -> & _). split; reflexivity.
    - unfold liquidate in H. bstep H u0 E0. bstep H s1 E1. bstep H s2 E2. pose proof (accrue_linv C _ _ _ Hi E1) as Hi1.
      destruct (stuck_accrue_other s la s1 a Hi F E1) as (Hne & Q1 & Q2 & F1). destruct (stuck_accrue_other s1 ca s2 a Hi1 F1 E2) as (Hne2 & Q3 & Q4 & F2).
      apply do_liquidate_eff in H. split; [intuition congruence|].
      destruct H as (mk & d & r & rv & lv & cp & under & k & inc & b & R & E & X & Y & Z & L & Hm & _ & _ & _ & Hd & _ & _ & _ & _ & _ & _ & HL & Hb & Hb1 & Hb2 & s5 & Hs5 & r' & R' & E' & X' & Y' & Z' & _ & Hk & Hkd & Hinc & Hki & -> & Hv1 & Hv2).
      cbn zeta. assert (Q5 : acc_of s5 a = acc_of s2 a /\ ln_time s5 = ln_time s2).
      { rewrite Hs5. rewrite acc_of_put. destruct (decide (a = la)); [congruence|]. split; reflexivity. }
      destruct Q5 as [Q5 Q6]. split; [change (m_last (acc_of s5 a) = m_last (acc_of s a)); rewrite Q5, Q3, Q1; reflexivity|change (ln_time s5 = ln_time s); congruence].
    - split; [intuition discriminate|]. apply transfer_pt_unfold in H as (R & E & X & Y & Z & u & red & _ & _ & _ & Hge & -> & Hv). cbn zeta.
      unfold put_dep_or_remove. destruct (_ =? 0); split; reflexivity.
    - split; [intuition discriminate|]. unfold add_reserves in H. bstep H u0 E0. bstep H mk E1. bstep H L E2. bstep H t E3. injection H as <-. split; [|reflexivity].
      rewrite acc_of_put. destruct (decide _) as [->|]; reflexivity.
    - split; [intuition discriminate|]. unfold reduce_reserves in H. bstep H u0 E0. bstep H mk E1. bstep H u1 E4. bstep H t E3. bstep H L E2. injection H as <-. split; [|reflexivity].
      rewrite acc_of_put. destruct (decide _) as [->|]; reflexivity.
    - unfold reduce_incentive in H. bstep H u0 E0. bstep H u1 E1. bstep H mk E2. bstep H r E3. bstep H v E4.
      bstep H p E5. destruct p as [s1 x]. bstep H L E6. injection H as <-. apply redeem_voucher_eff in E5.
      assert (a0 <> a) by congruence. apply redeem_eff_time in E5 as [Q1 Q2]. split; [intuition congruence|].
      change (acc_of (st_led s1 L) a) with (acc_of s1 a). change (ln_time (st_led s1 L)) with (ln_time s1). rewrite Q1, Q2 by auto. auto.
    - split; [intuition discriminate|]. unfold update_free in H. bstep H u0 E0. injection H as <-. split; reflexivity.
    - apply fst_res_ok in H as [x H]. unfold force_redeem, redeem in H. bstep H u0 E0. bstep H u1 E1. apply do_redeem_eff in H. destruct (redeem_all_time _ _ _ _ _ _ a Hi F H) as (? & -> & ->). intuition congruence.
    - apply fst_res_ok in H as [x H]. unfold force_redeem_all in H. bstep H u0 E0. apply do_redeem_all_eff in H. destruct (redeem_all_time _ _ _ _ _ _ a Hi F H) as (? & -> & ->). intuition congruence.
    - bstep H s1 E1. bstep H b E2. injection H as <-. destruct (stuck_accrue_other s a0 s1 a Hi F E1) as (Hne & Q1 & Q2 & _). rewrite Q1, Q2. intuition congruence.
  Qed.
  Lemma step_stuck s s' a : cfg_ok C -> linv s -> stuck s a -> loans_step C P s s' -> supply_of s' a = supply_of s a /\ stuck s' a.
  Proof.
    intros HC Hi F H. destruct (step_frozen s s' a HC Hi (proj1 F) H) as [Q1 Q2]. split; [auto|]. destruct H as [c s' Hc H|L HL Hb|p Hp|t b' Ht Hb].
    - apply (exec_stuck s c s' a HC Hc Hi F H).
    - split; [exact Q2|]. exact (proj2 F).
    - split; [exact Q2|]. exact (proj2 F).
    - split; [exact Q2|]. destruct F as [_ F]. change (0 < m_last (acc_of s a) < t). lia.
  Qed.
  Lemma steps_stuck s s' a : cfg_ok C -> linv s -> stuck s a -> loans_steps C P s s' -> linv s' /\ supply_of s' a = supply_of s a /\ stuck s' a.
  Proof.
    intros HC Hi F H. induction H as [s|s1 s2 s3 H IH Hs]; [auto|]. destruct (IH Hi F) as (I1 & I2 & I3).
    destruct (step_stuck s2 s3 a HC I1 I3 Hs) as [Q1 Q2]. split; [eapply step_linv; eauto|]. split; [congruence|auto].
  Qed.
End freeze.
