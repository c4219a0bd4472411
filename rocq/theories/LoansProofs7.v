(** * LoansProofs7: who can change what (positions, parameters), and monotonicity of the interest index. *)
From Verif Require Import Base MapSum Ledger AmmModel LoansModel LoansSpec LoansProofs LoansProofs2 LoansProofs3 LoansProofs4 LoansProofs5 LoansProofs6.

Section frame.
  Context (C : loans_cfg) (P : policy).

  (** parameters, debts and clocks are unchanged *)
  Definition same_params (s s' : loans) : Prop :=
    ln_mkts s' = ln_mkts s /\ ln_under s' = ln_under s /\ ln_free s' = ln_free s /\ ln_price s' = ln_price s /\
    ln_time s' = ln_time s /\ ln_block s' = ln_block s.
  Lemma sp_refl s : same_params s s. Proof. unfold same_params. auto 10. Qed.
  Lemma sp_trans s1 s2 s3 : same_params s1 s2 -> same_params s2 s3 -> same_params s1 s3.
  Proof. unfold same_params. intros (?&?&?&?&?&?) (?&?&?&?&?&?). repeat split; congruence. Qed.
  Lemma sp_core s s' : core_eq s s' -> same_params s s'.
  Proof. intros (R&E&X&Y&Z&->). unfold same_params. cbn. auto 10. Qed.
  Lemma sp_accrue s a s' : accrue C s a = Ok s' -> same_params s s'.
  Proof. intros H. apply accrue_mkts in H as [X ->]. unfold same_params. cbn. auto 10. Qed.
  Lemma sp_rm s a w d : same_params s (put_dep_or_remove s a w d).
  Proof. unfold put_dep_or_remove. destruct (_ =? 0); unfold same_params; cbn; auto 10. Qed.
  Ltac sp := unfold same_params; cbn; auto 10.

  Lemma sp_redeem_eff s w a v x s' : redeem_eff C P s w a v x s' -> same_params s s'.
  Proof.
    intros (R & E & X & Y & Z & r & L & _ & _ & _ & _ & _ & _ & _ & _ & _ & _ & ->).
    eapply sp_trans; [apply (sp_rm (aux s R E X Y Z) a w (mkDep (vouchers s a w - v) (is_collateral s a w)))|]. sp.
  Qed.
  Lemma sp_redeem_all s w a sel s' x : redeem_all_eff C P s w a sel s' x -> same_params s s'.
  Proof.
    intros (mk & s1 & s2 & r & Hm & _ & Hacc & Hr & Hc & H). eapply sp_trans; [eapply sp_accrue; exact Hacc|].
    eapply sp_trans; [apply sp_core; exact Hc|]. eapply sp_redeem_eff; exact H.
  Qed.
  Lemma sp_repay s w a amt s' : do_repay C P s w a amt = Ok s' -> same_params s s'.
  Proof.
    intros H. apply do_repay_eff in H as (mk & s1 & Hm & _ & Hacc & H).
    eapply sp_trans; [eapply sp_accrue; exact Hacc|]. destruct H as (R & E & X & Y & Z & b & L & _ & _ & _ & _ & ->). sp.
  Qed.
  Lemma sp_pay s w s' : pay_reward C P s w = Ok s' -> same_params s s'.
  Proof. unfold pay_reward. destruct (0 <? _); [|intros [= <-]; apply sp_refl]. intros H. bstep H L E. injection H as <-. sp. Qed.

  Lemma exec_params s c s' : loans_exec C P s c = Ok s' -> ~ changes_params c -> same_params s s'.
  Proof.
    intros H Hn. destruct c; cbn in H, Hn; try tauto.
    - unfold add_reward in H. bstep H u0 E0. bstep H L E1. injection H as <-. sp.
    - unfold withdraw_missing in H. bstep H u0 E0. bstep H u1 E2. bstep H L E1. injection H as <-. sp.
    - unfold update_speed in H. bstep H u0 E0. bstep H u1 E1. bstep H s1 E2.
      assert (Hg1 : core_eq s s1).
      { destruct (_ =? _) in E2; [injection E2 as <-; apply core_refl|]. bstep E2 t E3. injection E2 as <-.
        eapply core_trans; [eapply upd_supply_index_core; eauto|apply core_rew]. }
      apply sp_core. eapply core_trans; [exact Hg1|].
      destruct (_ =? _) in H; [injection H as <-; apply core_refl|]. bstep H t E3. injection H as <-.
      eapply core_trans; [eapply upd_borrow_index_core; eauto|apply core_rew].
    - unfold claim_reward in H. bstep H s1 E1. apply collect_all_core in E1. eapply sp_trans; [apply sp_core; exact E1|eapply sp_pay; exact H].
    - unfold claim_reward_for in H. bstep H s1 E1. apply collect_reward_core in E1. eapply sp_trans; [apply sp_core; exact E1|eapply sp_pay; exact H].
    - apply do_mint_eff in H as (_ & mk & s1 & R & E & X & Y & Z & r & v & L & _ & _ & _ & Hacc & _ & _ & _ & _ & _ & _ & _ & ->).
      eapply sp_trans; [eapply sp_accrue; exact Hacc|]. sp.
    - apply fst_res_ok in H as [x H]. unfold redeem in H. bstep H u0 E0. apply do_redeem_eff in H. eapply sp_redeem_all; exact H.
    - apply fst_res_ok in H as [x H]. apply do_redeem_eff in H. eapply sp_redeem_all; exact H.
    - apply fst_res_ok in H as [x H]. apply do_redeem_all_eff in H. eapply sp_redeem_all; exact H.
    - apply do_borrow_eff in H as (mk & s1 & R & E & X & Y & Z & b & val & L & _ & _ & Hacc & _ & _ & _ & _ & _ & _ & _ & _ & ->).
      eapply sp_trans; [eapply sp_accrue; exact Hacc|]. sp.
    - eapply sp_repay; exact H.
    - unfold repay_all in H. bstep H mk E1. bstep H s1 E2. bstep H b E3. eapply sp_trans; [eapply sp_accrue; exact E2|eapply sp_repay; exact H].
    - unfold collateral_asset in H. bstep H u0 E0. bstep H d E1. bstep H u1 E2.
      apply do_collateral_eff in H as (mk & d' & _ & _ & Hd & -> & _). sp.
    - apply do_collateral_eff in H as (mk & d' & _ & _ & Hd & -> & _). sp.
    - unfold liquidate in H. bstep H u0 E0. bstep H s1 E1. bstep H s2 E2. apply do_liquidate_eff in H.
      eapply sp_trans; [eapply sp_accrue; exact E1|]. eapply sp_trans; [eapply sp_accrue; exact E2|].
      destruct H as (mk & d & r & rv & lv & cp & under & k & inc & b & R & E & X & Y & Z & L & _ & _ & _ & _ & _ & _ & _ & _ & _ & _ & _ & _ & _ & _ & _ & s5 & Hs5 & r' & R' & E' & X' & Y' & Z' & _ & _ & _ & _ & _ & -> & _ & _).
      subst s5. sp.
    - apply transfer_pt_unfold in H as (R & E & X & Y & Z & u & red & _ & _ & _ & Hge & -> & Hv). cbn zeta.
      eapply sp_trans; [apply (sp_rm (aux s R E X Y Z) u src (mkDep (vouchers s u src - amt) (is_collateral s u src)))|]. sp.
    - unfold add_reserves in H. bstep H u0 E0. bstep H mk E1. bstep H L E2. bstep H t E3. injection H as <-. sp.
    - unfold reduce_reserves in H. bstep H u0 E0. bstep H mk E1. bstep H u1 E4. bstep H t E3. bstep H L E2. injection H as <-. sp.
    - unfold reduce_incentive in H. bstep H u0 E0. bstep H u1 E1. bstep H mk E2. bstep H r E3. bstep H v E4.
      bstep H p E5. destruct p as [s1 x]. bstep H L E6. injection H as <-. apply redeem_voucher_eff, sp_redeem_eff in E5.
      eapply sp_trans; [exact E5|]. sp.
    - apply fst_res_ok in H as [x H]. unfold force_redeem, redeem in H. bstep H u0 E0. bstep H u1 E1. apply do_redeem_eff in H. eapply sp_redeem_all; exact H.
    - apply fst_res_ok in H as [x H]. unfold force_redeem_all in H. bstep H u0 E0. apply do_redeem_all_eff in H. eapply sp_redeem_all; exact H.
    - bstep H s1 E1. bstep H b E2. injection H as <-. eapply sp_accrue; exact E1.
  Qed.

  (** governance calls need the governance origin, reserve calls the reserve origin *)
  Lemma exec_origin s c s' : loans_exec C P s c = Ok s' ->
    (forall o, governance_origin c = Some o -> ln_update C o = true) /\ (forall o, reserve_origin c = Some o -> ln_reserve C o = true).
  Proof.
    intros H. destruct c; cbn in H; (split; [intros ? [= <-]|intros ? [= <-]]);
      first [ apply fst_res_ok in H as [? H] | idtac ];
      first [ unfold add_market in H | unfold activate_market in H | unfold update_rate_model in H | unfold update_market in H
            | unfold force_update_market in H | unfold withdraw_missing in H | unfold update_speed in H | unfold update_free in H
            | unfold force_redeem in H | unfold force_redeem_all in H | unfold add_reserves in H | unfold reduce_reserves in H | unfold reduce_incentive in H ];
      bstep H u0 E0; exact E0.
  Qed.

  (** *** debts *)
  Lemma redeem_eff_debts s w a v x s' : redeem_eff C P s w a v x s' -> ln_debts s' = ln_debts s.
  Proof.
    intros (R & E & X & Y & Z & r & L & _ & _ & _ & _ & _ & _ & _ & _ & _ & _ & ->).
    unfold put_dep_or_remove. destruct (_ =? 0); reflexivity.
  Qed.
  Lemma redeem_all_debts s w a sel s' x : redeem_all_eff C P s w a sel s' x -> ln_debts s' = ln_debts s.
  Proof.
    intros (mk & s1 & s2 & r & Hm & _ & Hacc & Hr & (R & E & X & Y & Z & ->) & H). apply redeem_eff_debts in H as ->.
    apply accrue_mkts in Hacc as [X1 ->]. reflexivity.
  Qed.
  Lemma exec_debts s c s' a w : linv s -> call_ok C c -> loans_exec C P s c = Ok s' -> ~ changes_debt c a w -> debt_of s' a w = debt_of s a w.
  Proof.
    intros Hi Hok H Hn. destruct c; cbn in H, Hn, Hok.
    - unfold add_market in H. bstep H u0 E0. bstep H u1 E1. bstep H u2 E2. bstep H u3 E3. bstep H u4 E4. bstep H u5 E5.
      bstep H u6 E6. bstep H u7 E7. bstep H u8 E8. bstep H u9 E9. injection H as <-. reflexivity.
    - unfold activate_market in H. bstep H u0 E0. bstep H mk E1. injection H as <-. reflexivity.
    - unfold update_rate_model in H. bstep H u0 E0. bstep H u1 E2. bstep H mk E1. injection H as <-. reflexivity.
    - unfold update_market in H. bstep H u0 E0. bstep H mk E1. bstep H u1 E2. bstep H u2 E3. bstep H u3 E4. bstep H u4 E5. injection H as <-. reflexivity.
    - unfold force_update_market in H. bstep H u0 E0. bstep H u1 E2. bstep H u2 E3. bstep H mk0 E1. injection H as <-. reflexivity.
    - unfold add_reward in H. bstep H u0 E0. bstep H L E1. injection H as <-. reflexivity.
    - unfold withdraw_missing in H. bstep H u0 E0. bstep H u1 E2. bstep H L E1. injection H as <-. reflexivity.
    - unfold update_speed in H. bstep H u0 E0. bstep H u1 E1. bstep H s1 E2.
      assert (Hg1 : core_eq s s1).
      { destruct (_ =? _) in E2; [injection E2 as <-; apply core_refl|]. bstep E2 t E3. injection E2 as <-.
        eapply core_trans; [eapply upd_supply_index_core; eauto|apply core_rew]. }
      assert (Hg : core_eq s s').
      { eapply core_trans; [exact Hg1|].
        destruct (_ =? _) in H; [injection H as <-; apply core_refl|]. bstep H t E3. injection H as <-.
        eapply core_trans; [eapply upd_borrow_index_core; eauto|apply core_rew]. }
      destruct Hg as (R & E & X & Y & Z & ->). reflexivity.
    - unfold claim_reward in H. bstep H s1 E1. apply collect_all_core in E1 as (R & E & X & Y & Z & ->).
      unfold pay_reward in H. destruct (0 <? _); [|injection H as <-; reflexivity]. bstep H L E2. injection H as <-. reflexivity.
    - unfold claim_reward_for in H. bstep H s1 E1. apply collect_reward_core in E1 as (R & E & X & Y & Z & ->).
      unfold pay_reward in H. destruct (0 <? _); [|injection H as <-; reflexivity]. bstep H L E2. injection H as <-. reflexivity.
    - apply do_mint_eff in H as (_ & mk & s1 & R & E & X & Y & Z & r & v & L & _ & _ & _ & Hacc & _ & _ & _ & _ & _ & _ & _ & ->).
      apply accrue_mkts in Hacc as [X1 ->]. reflexivity.
    - apply fst_res_ok in H as [x H]. unfold redeem in H. bstep H u0 E0. apply do_redeem_eff, redeem_all_debts in H. unfold debt_of. rewrite H. reflexivity.
    - apply fst_res_ok in H as [x H]. apply do_redeem_eff, redeem_all_debts in H. unfold debt_of. rewrite H. reflexivity.
    - apply fst_res_ok in H as [x H]. apply do_redeem_all_eff, redeem_all_debts in H. unfold debt_of. rewrite H. reflexivity.
    - destruct (borrow_full C P s w0 a0 amt s' Hi (proj1 Hok) (proj2 Hok) H) as (mk & s1 & b & _ & _ & _ & _ & _ & _ & _ & _ & _ & _ & Hd & _).
      apply Hd. intros [= <- <-]. apply Hn. auto.
    - destruct (repay_full C P s w0 a0 amt s' Hi H) as (s1 & b & _ & _ & _ & _ & _ & _ & Hd & _).
      apply Hd. intros [= <- <-]. apply Hn. auto.
    - unfold repay_all in H. bstep H mk E1. bstep H s1 E2. bstep H b E3. pose proof (accrue_linv C _ _ _ Hi E2) as Hi1.
      destruct (repay_full C P s1 w0 a0 b s' Hi1 H) as (s2 & b' & _ & _ & _ & _ & _ & _ & Hd & _).
      rewrite Hd by (intros [= <- <-]; apply Hn; auto). eapply accrue_debts; eauto.
    - unfold collateral_asset in H. bstep H u0 E0. bstep H d E1. bstep H u1 E2.
      apply do_collateral_eff in H as (mk & d' & _ & _ & Hd & -> & _). reflexivity.
    - apply do_collateral_eff in H as (mk & d' & _ & _ & Hd & -> & _). reflexivity.
    - apply (liquidate_full C P) in H; auto; try apply Hok.
      destruct H as (s1 & s2 & mk & B & T & lB & lT & b & bv & rv & eff & k & inc & H). do 28 (apply proj2 in H). apply proj1 in H.
      apply H. intros [= <- <-]. apply Hn. auto.
    - apply transfer_pt_unfold in H as (R & E & X & Y & Z & u & red & _ & _ & _ & Hge & -> & Hv). cbn zeta.
      unfold put_dep_or_remove. destruct (_ =? 0); reflexivity.
    - unfold add_reserves in H. bstep H u0 E0. bstep H mk E1. bstep H L E2. bstep H t E3. injection H as <-. reflexivity.
    - unfold reduce_reserves in H. bstep H u0 E0. bstep H mk E1. bstep H u1 E4. bstep H t E3. bstep H L E2. injection H as <-. reflexivity.
    - unfold reduce_incentive in H. bstep H u0 E0. bstep H u1 E1. bstep H mk E2. bstep H r E3. bstep H v E4.
      bstep H p E5. destruct p as [s1 x]. bstep H L E6. injection H as <-. apply redeem_voucher_eff, redeem_eff_debts in E5.
      unfold debt_of. cbn. rewrite E5. reflexivity.
    - unfold update_free in H. bstep H u0 E0. injection H as <-. reflexivity.
    - apply fst_res_ok in H as [x H]. unfold force_redeem, redeem in H. bstep H u0 E0. bstep H u1 E1. apply do_redeem_eff, redeem_all_debts in H. unfold debt_of. rewrite H. reflexivity.
    - apply fst_res_ok in H as [x H]. unfold force_redeem_all in H. bstep H u0 E0. apply do_redeem_all_eff, redeem_all_debts in H. unfold debt_of. rewrite H. reflexivity.
    - bstep H s1 E1. bstep H b E2. injection H as <-. eapply accrue_debts; eauto.
  Qed.

  (** *** vouchers *)
  Lemma redeem_eff_vouchers s w a v x s' b y : redeem_eff C P s w a v x s' -> (b, y) <> (a, w) -> vouchers s' b y = vouchers s b y.
  Proof.
    intros (R & E & X & Y & Z & r & L & _ & _ & _ & _ & _ & _ & _ & _ & _ & _ & ->) Hne.
    change (vouchers (st_led (put_acc ?t _ _) L) b y) with (vouchers t b y). rewrite vouchers_put_rm. destruct (decide _); [congruence|reflexivity].
  Qed.
  Lemma accrue_vouchers s a s1 b w : accrue C s a = Ok s1 -> vouchers s1 b w = vouchers s b w.
  Proof. intros H. unfold vouchers. rewrite (accrue_deps C s a s1 b w H). reflexivity. Qed.
  Lemma redeem_all_vouchers s w a sel s' x b y : redeem_all_eff C P s w a sel s' x -> (b, y) <> (a, w) -> vouchers s' b y = vouchers s b y.
  Proof.
    intros (mk & s1 & s2 & r & Hm & _ & Hacc & Hr & (R & E & X & Y & Z & ->) & H) Hne. apply (redeem_eff_vouchers _ _ _ _ _ _ b y) in H; auto.
    rewrite H. change (vouchers (aux s1 R E X Y Z) b y) with (vouchers s1 b y). eapply accrue_vouchers; eauto.
  Qed.
  Lemma exec_vouchers s c s' a w : linv s -> call_ok C c -> loans_exec C P s c = Ok s' -> ~ lowers_vouchers C c a w -> vouchers s a w <= vouchers s' a w.
  Proof.
    intros Hi Hok H Hn. destruct c; cbn in H, Hn, Hok.
    - unfold add_market in H. bstep H u0 E0. bstep H u1 E1. bstep H u2 E2. bstep H u3 E3. bstep H u4 E4. bstep H u5 E5.
      bstep H u6 E6. bstep H u7 E7. bstep H u8 E8. bstep H u9 E9. injection H as <-. reflexivity.
    - unfold activate_market in H. bstep H u0 E0. bstep H mk E1. injection H as <-. reflexivity.
    - unfold update_rate_model in H. bstep H u0 E0. bstep H u1 E2. bstep H mk E1. injection H as <-. reflexivity.
    - unfold update_market in H. bstep H u0 E0. bstep H mk E1. bstep H u1 E2. bstep H u2 E3. bstep H u3 E4. bstep H u4 E5. injection H as <-. reflexivity.
    - unfold force_update_market in H. bstep H u0 E0. bstep H u1 E2. bstep H u2 E3. bstep H mk0 E1. injection H as <-. reflexivity.
    - unfold add_reward in H. bstep H u0 E0. bstep H L E1. injection H as <-. reflexivity.
    - unfold withdraw_missing in H. bstep H u0 E0. bstep H u1 E2. bstep H L E1. injection H as <-. reflexivity.
    - unfold update_speed in H. bstep H u0 E0. bstep H u1 E1. bstep H s1 E2.
      assert (Hg1 : core_eq s s1).
      { destruct (_ =? _) in E2; [injection E2 as <-; apply core_refl|]. bstep E2 t E3. injection E2 as <-.
        eapply core_trans; [eapply upd_supply_index_core; eauto|apply core_rew]. }
      assert (Hg : core_eq s s').
      { eapply core_trans; [exact Hg1|].
        destruct (_ =? _) in H; [injection H as <-; apply core_refl|]. bstep H t E3. injection H as <-.
        eapply core_trans; [eapply upd_borrow_index_core; eauto|apply core_rew]. }
      destruct Hg as (R & E & X & Y & Z & ->). reflexivity.
    - unfold claim_reward in H. bstep H s1 E1. apply collect_all_core in E1 as (R & E & X & Y & Z & ->).
      unfold pay_reward in H. destruct (0 <? _); [|injection H as <-; reflexivity]. bstep H L E2. injection H as <-. reflexivity.
    - unfold claim_reward_for in H. bstep H s1 E1. apply collect_reward_core in E1 as (R & E & X & Y & Z & ->).
      unfold pay_reward in H. destruct (0 <? _); [|injection H as <-; reflexivity]. bstep H L E2. injection H as <-. reflexivity.
    - destruct (mint_full C P s w0 a0 amt s' Hi (proj1 Hok) (proj2 Hok) H) as (mk & s1 & r & v & _ & _ & _ & _ & _ & _ & Hv & Hw & _ & _ & _ & _ & Hf & _).
      destruct (decide ((a, w) = (a0, w0))) as [[= -> ->]|Ne]; [lia|]. unfold vouchers. rewrite Hf by auto. lia.
    - apply fst_res_ok in H as [x H]. unfold redeem in H. bstep H u0 E0. apply do_redeem_eff, (redeem_all_vouchers _ _ _ _ _ _ a w) in H; [lia|]. intros [= -> ->]. apply Hn; auto.
    - apply fst_res_ok in H as [x H]. apply do_redeem_eff, (redeem_all_vouchers _ _ _ _ _ _ a w) in H; [lia|]. intros [= -> ->]. apply Hn; auto.
    - apply fst_res_ok in H as [x H]. apply do_redeem_all_eff, (redeem_all_vouchers _ _ _ _ _ _ a w) in H; [lia|]. intros [= -> ->]. apply Hn; auto.
    - destruct (borrow_full C P s w0 a0 amt s' Hi (proj1 Hok) (proj2 Hok) H) as (mk & s1 & b & _ & _ & _ & _ & _ & _ & _ & _ & _ & _ & _ & _ & Hd).
      unfold vouchers. rewrite Hd. lia.
    - destruct (repay_full C P s w0 a0 amt s' Hi H) as (s1 & b & _ & _ & _ & _ & _ & _ & _ & _ & Hd). unfold vouchers. rewrite Hd. lia.
    - unfold repay_all in H. bstep H mk E1. bstep H s1 E2. bstep H b E3. pose proof (accrue_linv C _ _ _ Hi E2) as Hi1.
      destruct (repay_full C P s1 w0 a0 b s' Hi1 H) as (s2 & b' & _ & _ & _ & _ & _ & _ & _ & _ & Hd). unfold vouchers. rewrite Hd.
      rewrite (accrue_deps C s a0 s1 a w E2). lia.
    - unfold collateral_asset in H. bstep H u0 E0. bstep H d E1. bstep H u1 E2.
      apply do_collateral_eff in H as (mk & d' & _ & _ & Hd & -> & _). rewrite vouchers_put. destruct (decide _) as [[= -> ->]|]; [|lia].
      unfold vouchers, dep_of. rewrite Hd. cbn. lia.
    - apply do_collateral_eff in H as (mk & d' & _ & _ & Hd & -> & _). rewrite vouchers_put. destruct (decide _) as [[= -> ->]|]; [|lia].
      unfold vouchers, dep_of. rewrite Hd. cbn. lia.
    - apply (liquidate_full C P) in H; auto; try apply Hok.
      destruct H as (s1 & s2 & mk & B & T & lB & lT & b & bv & rv & eff & k & inc & H). do 22 (apply proj2 in H).
      destruct H as (Hk & Hinc & Hv & _ & Hf & _). destruct (Z.eq_dec a ca) as [->|Ne]; [|unfold vouchers; rewrite Hf by auto; lia].
      rewrite Hv. destruct (decide (w = w0)) as [->|]; [exfalso; apply Hn; auto|]. repeat destruct (decide _); lia.
    - apply transfer_pt_unfold in H as (R & E & X & Y & Z & u & red & _ & _ & _ & Hge & -> & Hv). cbn zeta. destruct Hok as [[Ha _] _].
      rewrite vouchers_put. cbn [d_v]. destruct (decide _) as [[= -> ->]|Ne].
      + rewrite vouchers_put_rm. cbn [d_v]. destruct (decide _) as [[= ->]|]; [lia|]. change (vouchers (aux s R E X Y Z) u dst) with (vouchers s u dst). lia.
      + rewrite vouchers_put_rm. cbn [d_v]. destruct (decide _) as [[= -> ->]|]; [exfalso; apply Hn; auto|]. change (vouchers (aux s R E X Y Z) a w) with (vouchers s a w). lia.
    - unfold add_reserves in H. bstep H u0 E0. bstep H mk E1. bstep H L E2. bstep H t E3. injection H as <-. reflexivity.
    - unfold reduce_reserves in H. bstep H u0 E0. bstep H mk E1. bstep H u1 E4. bstep H t E3. bstep H L E2. injection H as <-. reflexivity.
    - unfold reduce_incentive in H. bstep H u0 E0. bstep H u1 E1. bstep H mk E2. bstep H r E3. bstep H v E4.
      bstep H p E5. destruct p as [s1 x]. bstep H L E6. injection H as <-. apply redeem_voucher_eff, (redeem_eff_vouchers _ _ _ _ _ _ a w) in E5.
      + change (vouchers (st_led s1 L) a w) with (vouchers s1 a w). lia.
      + intros [= -> ->]. apply Hn. auto.
    - unfold update_free in H. bstep H u0 E0. injection H as <-. reflexivity.
    - apply fst_res_ok in H as [x H]. unfold force_redeem, redeem in H. bstep H u0 E0. bstep H u1 E1. apply do_redeem_eff, (redeem_all_vouchers _ _ _ _ _ _ a w) in H; [lia|]. intros [= -> ->]. apply Hn; auto.
    - apply fst_res_ok in H as [x H]. unfold force_redeem_all in H. bstep H u0 E0. apply do_redeem_all_eff, (redeem_all_vouchers _ _ _ _ _ _ a w) in H; [lia|]. intros [= -> ->]. apply Hn; auto.
    - bstep H s1 E1. bstep H b E2. injection H as <-. rewrite (accrue_vouchers s a0 s1 a w E1). lia.
  Qed.
End frame.
