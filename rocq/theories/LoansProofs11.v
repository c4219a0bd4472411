(** * LoansProofs11: absence of panics, growth of the borrow index, rewards and voucher transfers, round trips. *)
From Verif Require Import Base MapSum Ledger AmmModel LoansModel LoansSpec LoansProofs LoansProofs2 LoansProofs3 LoansProofs4 LoansProofs5 LoansProofs6 LoansProofs8 LoansProofs9.

(** ** panics *)
Lemma np_bind {A B} (m : res A) (k : A -> res B) : m <> Panic -> (forall a, m = Ok a -> k a <> Panic) -> rbind m k <> Panic.
Proof. destruct m; cbn; intros H1 H2; [apply H2; reflexivity|discriminate|congruence]. Qed.
Lemma np_ok_or {A} (o : option A) e : ok_or o e <> Panic. Proof. destruct o; discriminate. Qed.
Lemma np_ensure b e : ensure b e <> Panic. Proof. destruct b; discriminate. Qed.
Lemma np_ok {A} (a : A) : Ok a <> Panic. Proof. discriminate. Qed.
Lemma np_err {A} e : @Err A e <> Panic. Proof. discriminate. Qed.
Lemma np_transfer P L a x y amt ka : transfer P L a x y amt ka <> Panic.
Proof. unfold transfer. repeat (match goal with |- context [if ?b then _ else _] => destruct b end; try discriminate). Qed.
Ltac np1 := first [apply np_ok | apply np_err | apply np_ok_or | apply np_ensure | apply np_transfer | assumption
  | match goal with |- rbind _ _ <> Panic => apply np_bind; [|let a := fresh "v" in let E := fresh "E" in intros a E] end
  | match goal with |- (if ?b then _ else _) <> Panic => let E := fresh "B" in destruct b eqn:E end
  | match goal with |- (match ?b with Some _ => _ | None => _ end) <> Panic => let E := fresh "B" in destruct b eqn:E end
  | match goal with |- (let '(_, _) := ?p in _) <> Panic => destruct p end ].
Ltac nps := repeat (cbn zeta; np1).

Section np.
  Context (C : loans_cfg) (P : policy).
  Lemma np_active s a : ensure_active s a <> Panic. Proof. unfold ensure_active. nps. Qed.
  Lemma np_get_market s a : get_market s a <> Panic. Proof. unfold get_market. nps. Qed.
  Lemma np_calc_ex x y z t : calc_exrate x y z t <> Panic. Proof. unfold calc_exrate. nps. Qed.
  Lemma np_exrate s a : exrate C s a <> Panic. Proof. apply np_calc_ex. Qed.
  Lemma np_accrue s a : accrue C s a <> Panic.
  Proof.
    unfold accrue, market_status, calc_util. repeat (cbn zeta; first [apply np_get_market|apply np_calc_ex|np1]).
  Qed.
  Lemma np_asset_value s a x : asset_value s a x <> Panic. Proof. unfold asset_value, get_price. nps. Qed.
  Lemma np_borrow_balance s w a : borrow_balance s w a <> Panic. Proof. unfold borrow_balance. nps. Qed.
  Lemma np_upd_s s a : upd_supply_index s a <> Panic. Proof. unfold upd_supply_index, delta_index. nps. Qed.
  Lemma np_upd_b s a : upd_borrow_index s a <> Panic. Proof. unfold upd_borrow_index, delta_index. nps. Qed.
  Lemma np_dist_s s a w : dist_supplier s a w <> Panic. Proof. unfold dist_supplier, reward_delta. nps. Qed.
  Lemma np_dist_b s a w : dist_borrower s a w <> Panic.
  Proof. unfold dist_borrower, reward_delta. repeat (cbn zeta; first [apply np_borrow_balance|np1]). Qed.
  Lemma np_earned s w a r : update_earned s w a r <> Panic. Proof. unfold update_earned. nps. Qed.
  Lemma np_sum f l acc : (forall a, f a <> Panic) -> sum_values f l acc <> Panic.
  Proof. intros Hf. revert acc. induction l as [|a l IH]; cbn; intros acc; nps; auto. Qed.
  Lemma np_debt_value s w a : debt_value s w a <> Panic.
  Proof. unfold debt_value. repeat first [apply np_borrow_balance|apply np_asset_value|np1]. Qed.
  Lemma np_collateral_amount f s w a : collateral_amount C f s w a <> Panic.
  Proof. unfold collateral_amount, to_underlying. repeat first [apply np_exrate|apply np_get_market|np1]. Qed.
  Lemma np_collateral_value s w a : collateral_value C s w a <> Panic.
  Proof. unfold collateral_value. repeat first [apply np_collateral_amount|apply np_asset_value|np1]. Qed.
  Lemma np_threshold_value s w a : threshold_value C s w a <> Panic.
  Proof. unfold threshold_value. repeat first [apply np_collateral_amount|apply np_asset_value|np1]. Qed.
  Lemma np_tb s w : total_borrowed s w <> Panic. Proof. apply np_sum. intros; apply np_debt_value. Qed.
  Lemma np_tc s w : total_collateral C s w <> Panic. Proof. apply np_sum. intros; apply np_collateral_value. Qed.
  Lemma np_tt s w : total_threshold C s w <> Panic. Proof. apply np_sum. intros; apply np_threshold_value. Qed.
  Lemma np_lfb s w : lf_base C s w <> Panic. Proof. apply np_sum. intros; apply np_collateral_value. Qed.
  Lemma np_lft s w : lf_threshold C s w <> Panic. Proof. apply np_sum. intros; apply np_threshold_value. Qed.
  Lemma np_lfd s w : lf_borrowed C s w <> Panic. Proof. unfold lf_borrowed. repeat first [apply np_borrow_balance|apply np_asset_value|np1]. Qed.
  Ltac np2 := first [apply np_active|apply np_get_market|apply np_exrate|apply np_accrue|apply np_asset_value|apply np_borrow_balance|apply np_upd_s|apply np_upd_b
    |apply np_dist_s|apply np_dist_b|apply np_earned|apply np_tb|apply np_tc|apply np_tt|apply np_lfb|apply np_lft|apply np_lfd|apply np_collateral_value|np1].
  Ltac nq := repeat (cbn zeta; np2).
  Lemma np_account_liquidity s w : account_liquidity C s w <> Panic. Proof. unfold account_liquidity. nq. Qed.
  Lemma np_threshold_liquidity s w : threshold_liquidity C s w <> Panic. Proof. unfold threshold_liquidity. nq. Qed.
  (** without liquidation-free collaterals the liquidity check cannot overflow *)
  Lemma np_ensure_liquidity s w x lf : ln_free s = [] -> 0 <= x <= U128MAX -> ensure_liquidity C s w x lf <> Panic.
  Proof.
    intros Hf Hx. unfold ensure_liquidity. apply np_bind; [apply np_account_liquidity|]. intros q Hq.
    apply account_liquidity_ok in Hq as (B & Co & lB & lC & _ & _ & E3 & E4 & ->).
    destruct lf; cbn [andb].
    - destruct (_ <=? _); discriminate.
    - assert (lC = 0) as ->.
      { unfold lf_base in E4. apply sum_values_ok in E4 as [-> _]. assert (lf_actives s = []) as ->; [|reflexivity].
        unfold lf_actives, is_lf. rewrite Hf. induction (actives s); cbn; auto. }
      assert (0 <= lB). { unfold lf_borrowed in E3. bstep E3 b Eb. apply asset_value_ok in E3 as (p & _ & _ & ?). lia. }
      apply np_bind; [|intros; apply np_ensure]. unfold raw_add, checked_add. rewrite Z.max_l by lia. rewrite Z.add_0_l.
      rewrite (proj2 (chk_some x x)) by (split; [reflexivity|lia]). discriminate.
  Qed.
  Lemma np_mint s w a amt : do_mint C P s w a amt <> Panic.
  Proof. unfold do_mint, under_supply_cap, to_voucher. nq. Qed.
  Lemma np_redeem_voucher s w a v : ln_free s = [] -> redeem_voucher C P s w a v <> Panic.
  Proof.
    intros Hf. unfold redeem_voucher, redeem_allowed, enough_cash, to_underlying. nq.
    apply np_ensure_liquidity; auto. match goal with H : asset_value _ _ _ = Ok ?z |- _ => apply asset_value_ok in H as (p & _ & _ & H); exact H end.
  Qed.
  Lemma accrue_free s a s1 : accrue C s a = Ok s1 -> ln_free s1 = ln_free s.
  Proof. intros H. apply accrue_mkts in H as [X ->]. reflexivity. Qed.
  Lemma earned_free s w a r s1 : update_earned s w a r = Ok s1 -> ln_free s1 = ln_free s.
  Proof. intros H. apply update_earned_core in H as (R & E & X & Y & Z & ->). reflexivity. Qed.
  Lemma np_do_redeem s w a amt : ln_free s = [] -> do_redeem C P s w a amt <> Panic.
  Proof.
    intros Hf. unfold do_redeem, to_voucher. nq. apply np_redeem_voucher.
    match goal with H1 : accrue _ _ _ = Ok _, H2 : update_earned _ _ _ _ = Ok _ |- _ => apply accrue_free in H1; apply earned_free in H2; congruence end.
  Qed.
  Lemma np_do_redeem_all s w a : ln_free s = [] -> do_redeem_all C P s w a <> Panic.
  Proof.
    intros Hf. unfold do_redeem_all, to_voucher. nq. apply np_redeem_voucher.
    match goal with H1 : accrue _ _ _ = Ok _, H2 : update_earned _ _ _ _ = Ok _ |- _ => apply accrue_free in H1; apply earned_free in H2; congruence end.
  Qed.
  Lemma np_borrow s w a amt : ln_free s = [] -> do_borrow C P s w a amt <> Panic.
  Proof.
    intros Hf. unfold do_borrow, borrow_allowed, under_borrow_cap, enough_cash. nq. apply np_ensure_liquidity.
    - match goal with H1 : accrue _ _ _ = Ok _ |- _ => apply accrue_free in H1; congruence end.
    - match goal with H : asset_value _ _ _ = Ok ?z |- _ => apply asset_value_ok in H as (p & _ & _ & H); exact H end.
  Qed.
  Lemma np_repay s w a amt : do_repay C P s w a amt <> Panic.
  Proof. unfold do_repay, repay_with_amount. nq. Qed.
  Lemma np_repay_all s w a : repay_all C P s w a <> Panic.
  Proof. unfold repay_all. repeat (cbn zeta; first [apply np_repay|np2]). Qed.
  Lemma np_collateral s w a e : do_collateral C s w a e <> Panic.
  Proof. unfold do_collateral. nq. Qed.
  Lemma np_liquidate s liq w la amt ca : linv s ->
    (forall mk, ln_mkts s !! la = Some mk -> FDIV <= mk_inc mk) -> liquidate C P s liq w la amt ca <> Panic.
  Proof.
    intros Hi Hinc. unfold liquidate. apply np_bind; [apply np_ensure|intros _ _]. apply np_bind; [apply np_accrue|intros s1 A1].
    apply np_bind; [apply np_accrue|intros s2 A2]. pose proof (accrue_linv C _ _ _ (accrue_linv C _ _ _ Hi A1) A2) as Hi2.
    apply accrue_mkts in A1 as [X1 ->]. apply accrue_mkts in A2 as [X2 ->].
    unfold do_liquidate. apply np_bind; [apply np_active|intros m1 _]. apply np_bind; [apply np_active|intros m2 _].
    apply np_bind; [apply np_get_market|intros mk Hm]. unfold get_market in Hm. apply ok_or_ok in Hm. cbn in Hm. specialize (Hinc mk Hm).
    pose proof (li_mkt _ (proj1 Hi2) la mk Hm) as [(_ & _ & _ & _ & Hir & _) _].
    apply np_bind; [apply np_ensure|intros _ _]. apply np_bind.
    { unfold liquidate_allowed. apply np_bind; [apply np_threshold_liquidity|intros [[[q1 q2] q3] q4] _]. nq. }
    intros _ _. unfold to_underlying, get_price, liquidated_transfer, to_voucher. cbn zeta.
    repeat match goal with |- rbind (raw_sub _ _) _ <> _ => fail 1 | _ => np2 end.
    apply np_bind; [|intros sh Hsh; nq].
    match goal with |- raw_sub ?k (p_mul_floor _ ?q) <> _ => rename k into kk; rename q into qq end.
    assert (Hq : ok_or (f_checked_div kk (mk_inc mk)) "Underflow" = Ok qq) by assumption.
    assert (Hk : exists r u, ok_or (f_checked_div u r) "Underflow" = Ok kk) by eauto.
    destruct Hk as (r & u & Hk). apply ok_or_ok in Hk, Hq. ok_arith Hk. ok_arith Hq. destruct Hk as (_ & _ & Hk). destruct Hq as (_ & Hq & Hq').
    pose proof FDIV_pos as HF. pose proof PMILL_pos as HP.
    assert (Hqk : qq <= kk). { rewrite Hq. apply Z.div_le_upper_bound; [lia|]. rewrite Z.mul_comm. apply Z.mul_le_mono_nonneg_r; lia. }
    assert (Hf : 0 <= p_mul_floor (mk_incres mk) qq <= kk).
    { destruct Hir as [Hir0 Hir1]. unfold p_mul_floor. split; [apply Z.div_pos; nia|]. etransitivity; [|exact Hqk]. apply Z.div_le_upper_bound; [lia|].
      apply Z.mul_le_mono_nonneg_r; lia. }
    unfold raw_sub, checked_sub. rewrite (proj2 (chk_some _ _)) by (split; [reflexivity|lia]). discriminate.
  Qed.
  Lemma np_transfer_pt s pt src dst amt : transfer_pt C s pt src dst amt <> Panic.
  Proof.
    unfold transfer_pt. apply np_bind.
    { unfold reducible_pt. assert (reducible_asset C s pt src <> Panic) as H.
      { unfold reducible_asset, underlying, to_voucher, get_price.
        apply np_bind; [apply np_ok_or|intros u _]. cbn zeta. destruct (negb _); [discriminate|].
        apply np_bind; [apply np_active|intros mk _]. apply np_bind; [apply np_collateral_value|intros cv _].
        apply np_bind; [apply np_account_liquidity|intros [[[q1 q2] q3] q4] _]. nq. }
      destruct (reducible_asset C s pt src); congruence. }
    intros red _. unfold underlying. nq.
  Qed.
  Lemma np_collect s a w : collect_reward s a w <> Panic. Proof. unfold collect_reward. nq. Qed.
  Lemma np_collect_all l s w : collect_all s w l <> Panic.
  Proof. revert s. induction l as [|a l IH]; cbn; intros s; [discriminate|]. apply np_bind; [apply np_collect|auto]. Qed.
  Lemma np_pay s w : pay_reward C P s w <> Panic. Proof. unfold pay_reward. nq. Qed.
  Lemma np_fst (r : res (loans * Z)) : r <> Panic -> fst_res r <> Panic.
  Proof. intros H. unfold fst_res. apply np_bind; [auto|intros; discriminate]. Qed.

  Lemma exec_np s c : linv s -> ln_free s = [] -> (forall a mk, ln_mkts s !! a = Some mk -> FDIV <= mk_inc mk) ->
    loans_exec C P s c <> Panic.
  Proof.
    intros Hi Hf Hinc. destruct c; cbn [loans_exec].
    - unfold add_market, ensure_ptoken. nq.
    - unfold activate_market. nq.
    - unfold update_rate_model. nq.
    - unfold update_market. nq.
    - unfold force_update_market. nq.
    - unfold add_reward. nq.
    - unfold withdraw_missing. nq.
    - unfold update_speed. nq.
    - unfold claim_reward. apply np_bind; [apply np_collect_all|intros; apply np_pay].
    - unfold claim_reward_for. apply np_bind; [apply np_collect|intros; apply np_pay].
    - apply np_mint.
    - apply np_fst. unfold redeem. apply np_bind; [apply np_ensure|intros; apply np_do_redeem; auto].
    - apply np_fst, np_do_redeem; auto.
    - apply np_fst, np_do_redeem_all; auto.
    - apply np_borrow; auto.
    - apply np_repay.
    - apply np_repay_all.
    - unfold collateral_asset. repeat (cbn zeta; first [apply np_collateral|np2]).
    - apply np_collateral.
    - apply np_liquidate; [exact Hi|]. intros mk Hm. exact (Hinc _ mk Hm).
    - apply np_transfer_pt.
    - unfold add_reserves. nq.
    - unfold reduce_reserves. nq.
    - unfold reduce_incentive, to_voucher. repeat (cbn zeta; first [apply np_redeem_voucher; assumption|np2]).
    - unfold update_free. nq.
    - apply np_fst. unfold force_redeem, redeem. repeat (first [apply np_do_redeem; assumption|np2]).
    - apply np_fst. unfold force_redeem_all. repeat (first [apply np_do_redeem_all; assumption|np2]).
    - nq.
  Qed.
End np.

(** ** the borrow index never falls, so debts never shrink by themselves *)
Section index.
  Context (C : loans_cfg) (P : policy).
  Definition ix_le (s s' : loans) : Prop := forall a, index_of s a <= index_of s' a.
  Lemma ix_refl s : ix_le s s. Proof. intros a. lia. Qed.
  Lemma ix_trans s1 s2 s3 : ix_le s1 s2 -> ix_le s2 s3 -> ix_le s1 s3.
  Proof. intros H1 H2 a. specialize (H1 a); specialize (H2 a). lia. Qed.
  Lemma ix_eq s s' : (forall a, index_of s' a = index_of s a) -> ix_le s s'. Proof. intros H a. rewrite H. lia. Qed.
  Lemma ix_core s s' : core_eq s s' -> ix_le s s'. Proof. intros (R & E & X & Y & Z & ->). apply ix_eq. reflexivity. Qed.
  Lemma ix_accrue s a s' : linv0 s -> accrue C s a = Ok s' -> ix_le s s'.
  Proof. intros Hi H b. eapply accrue_index; eauto. Qed.
  Lemma ix_redeem_eff s w a v x s' : redeem_eff C P s w a v x s' -> ix_le s s'.
  Proof.
    intros (R & E & X & Y & Z & r & L & _ & _ & _ & _ & _ & _ & _ & _ & _ & _ & ->). apply ix_eq. intros b.
    unfold index_of. change (acc_of (st_led ?y L) b) with (acc_of y b). rewrite acc_of_put. destruct (decide _) as [->|]; [reflexivity|].
    unfold put_dep_or_remove. destruct (_ =? 0); reflexivity.
  Qed.
  Lemma ix_redeem_all s w a sel s' x : linv s -> redeem_all_eff C P s w a sel s' x -> ix_le s s'.
  Proof.
    intros Hi (mk & s1 & s2 & r & _ & _ & H1 & _ & H2 & H3). eapply ix_trans; [eapply ix_accrue; eauto; apply Hi|].
    eapply ix_trans; [eapply ix_core; eauto|]. eapply ix_redeem_eff; eauto.
  Qed.
  Lemma exec_index s c s' : linv s -> call_ok C c -> loans_exec C P s c = Ok s' -> ix_le s s'.
  Proof.
    intros Hi Hc H. destruct c; cbn [loans_exec call_ok] in *.
    - unfold add_market in H. bstep H u1 E1. bstep H u2 E2. apply bool_decide_eq_true in E2.
      bstep H u3 E3. bstep H u4 E4. bstep H u5 E5. bstep H u6 E6. bstep H u7 E7. bstep H u8 E8. bstep H u9 E9. bstep H u10 E10. injection H as <-.
      intros b. unfold index_of. rewrite acc_of_put. destruct (decide _) as [->|]; cbn [m_index].
      + fold (index_of s a). rewrite (li_none s (proj1 Hi) a E2). pose proof FDIV_pos. lia.
      + change (acc_of (st_under _ _) b) with (acc_of s b). lia.
    - unfold activate_market in H. bstep H u1 E1. bstep H mk E2. injection H as <-. apply ix_eq. reflexivity.
    - unfold update_rate_model in H. bstep H u1 E1. bstep H u2 E2. bstep H mk E3. injection H as <-. apply ix_eq. reflexivity.
    - unfold update_market in H. bstep H u1 E1. bstep H mk E2. bstep H u3 E3. bstep H u4 E4. bstep H u5 E5. bstep H u6 E6. injection H as <-. apply ix_eq. reflexivity.
    - unfold force_update_market in H. bstep H u1 E1. bstep H u2 E2. bstep H u3 E3. bstep H mk0 E4. injection H as <-. apply ix_eq. reflexivity.
    - unfold add_reward in H. bstep H u1 E1. bstep H L E2. injection H as <-. apply ix_eq. reflexivity.
    - unfold withdraw_missing in H. bstep H u1 E1. bstep H u2 E2. bstep H L E3. injection H as <-. apply ix_eq. reflexivity.
    - unfold update_speed in H. bstep H u1 E1. bstep H mk E2. bstep H s1 E3.
      assert (ix_le s s1) as I1.
      { destruct (_ =? _) in E3; [injection E3 as <-; apply ix_refl|]. bstep E3 t Et. injection E3 as <-. apply upd_supply_index_core in Et.
        eapply ix_trans; [eapply ix_core; eauto|]. apply ix_eq. reflexivity. }
      eapply ix_trans; [exact I1|]. destruct (_ =? _) in H; [injection H as <-; apply ix_refl|]. bstep H t Et. injection H as <-. apply upd_borrow_index_core in Et.
      eapply ix_trans; [eapply ix_core; eauto|]. apply ix_eq. reflexivity.
    - unfold claim_reward in H. bstep H s1 E1. apply collect_all_core in E1. eapply ix_trans; [eapply ix_core; eauto|].
      unfold pay_reward in H. destruct (0 <? _); [|injection H as <-; apply ix_refl]. bstep H L E2. injection H as <-. apply ix_eq. reflexivity.
    - unfold claim_reward_for in H. bstep H s1 E1. apply collect_reward_core in E1. eapply ix_trans; [eapply ix_core; eauto|].
      unfold pay_reward in H. destruct (0 <? _); [|injection H as <-; apply ix_refl]. bstep H L E2. injection H as <-. apply ix_eq. reflexivity.
    - apply do_mint_eff in H as (_ & mk & s1 & R & E & X & Y & Z & r & v & L & _ & _ & _ & Ha & _ & _ & _ & _ & _ & H).
      destruct H as (_ & _ & ->). eapply ix_trans; [eapply ix_accrue; eauto; apply Hi|]. apply ix_eq. intros b.
      unfold index_of. rewrite acc_of_put. destruct (decide _) as [->|]; reflexivity.
    - apply fst_res_ok in H as [x H]. unfold redeem in H. bstep H u1 E1. apply do_redeem_eff in H. eapply ix_redeem_all; eauto.
    - apply fst_res_ok in H as [x H]. apply do_redeem_eff in H. eapply ix_redeem_all; eauto.
    - apply fst_res_ok in H as [x H]. apply do_redeem_all_eff in H. eapply ix_redeem_all; eauto.
    - destruct Hc as [Ha Hw]. pose proof (borrow_full C P _ _ _ _ _ Hi Ha Hw H) as (mk & s1 & b & _ & _ & Hacc & _ & _ & _ & _ & _ & _ & _ & _ & Hix & _).
      eapply ix_trans; [eapply ix_accrue; eauto; apply Hi|]. apply ix_eq. auto.
    - pose proof (repay_full C P _ _ _ _ _ Hi H) as (s1 & b & Hacc & _ & _ & _ & _ & _ & _ & Hix & _).
      eapply ix_trans; [eapply ix_accrue; eauto; apply Hi|]. apply ix_eq. auto.
    - unfold repay_all in H. bstep H mk E1. bstep H s1 E2. bstep H b E3. pose proof (accrue_linv C _ _ _ Hi E2) as Hi1.
      pose proof (repay_full C P _ _ _ _ _ Hi1 H) as (s2 & b2 & Hacc & _ & _ & _ & _ & _ & _ & Hix & _).
      eapply ix_trans; [eapply ix_accrue; [apply Hi|exact E2]|]. eapply ix_trans; [eapply ix_accrue; [apply Hi1|exact Hacc]|]. apply ix_eq. auto.
    - unfold collateral_asset in H. bstep H mk E1. bstep H d E2. bstep H u3 E3. apply do_collateral_eff in H as (mk' & d' & _ & _ & _ & -> & _). apply ix_eq. reflexivity.
    - apply do_collateral_eff in H as (mk' & d' & _ & _ & _ & -> & _). apply ix_eq. reflexivity.
    - destruct Hc as [Ha Hw]. pose proof (liquidate_full C P _ _ _ _ _ _ _ Hi Ha Hw H) as (s1 & s2 & mk & B & T & lB & lT & b & bv & rv & eff & k & inc & A1 & A2 & K).
      assert (forall c, index_of s' c = index_of s2 c) as Hix by (repeat match type of K with _ /\ _ => destruct K as [? K] end; assumption).
      pose proof (accrue_linv C _ _ _ Hi A1) as Hi1.
      eapply ix_trans; [eapply ix_accrue; [apply Hi|exact A1]|]. eapply ix_trans; [eapply ix_accrue; [apply Hi1|exact A2]|]. apply ix_eq. auto.
    - apply transfer_pt_unfold in H as (R & E & X & Y & Z & u & red & _ & _ & _ & _ & -> & _). apply ix_eq. intros b. cbn zeta. unfold put_dep_or_remove. destruct (_ =? 0); reflexivity.
    - unfold add_reserves in H. bstep H u1 E1. bstep H mk E2. bstep H L E3. bstep H t E4. injection H as <-.
      apply ix_eq. intros b. unfold index_of. rewrite acc_of_put. destruct (decide _) as [->|]; reflexivity.
    - unfold reduce_reserves in H. bstep H u1 E1. bstep H mk E2. bstep H u3 E3. bstep H t E4. bstep H L E5. injection H as <-.
      apply ix_eq. intros b. unfold index_of. rewrite acc_of_put. destruct (decide _) as [->|]; reflexivity.
    - unfold reduce_incentive in H. bstep H u1 E1. bstep H u2 E2. bstep H mk E3. bstep H r E4. bstep H v E5. bstep H q E6. destruct q as [s1 x]. bstep H L E7. injection H as <-.
      apply redeem_voucher_eff in E6. eapply ix_trans; [eapply ix_redeem_eff; eauto|]. apply ix_eq. reflexivity.
    - unfold update_free in H. bstep H u1 E1. injection H as <-. apply ix_eq. reflexivity.
    - apply fst_res_ok in H as [x H]. unfold force_redeem, redeem in H. bstep H u1 E1. bstep H u2 E2. apply do_redeem_eff in H. eapply ix_redeem_all; eauto.
    - apply fst_res_ok in H as [x H]. unfold force_redeem_all in H. bstep H u1 E1. apply do_redeem_all_eff in H. eapply ix_redeem_all; eauto.
    - bstep H s1 E1. bstep H b E2. injection H as <-. eapply ix_accrue; eauto. apply Hi.
  Qed.
  (** the snapshot arithmetic is monotone in the index *)
  Lemma debt_now_mono s s' a w : linv0 s -> index_of s a <= index_of s' a -> debt_of s' a w = debt_of s a w -> debt_now s a w <= debt_now s' a w.
  Proof.
    intros Hi Hx Hd. unfold debt_now. rewrite Hd. pose proof (li_debt s Hi a w) as Hdb. pose proof FDIV_pos as HF.
    destruct (b_i (debt_of s a w) =? 0) eqn:E; [lia|]. destruct Hdb as ((Hp & _) & (Hb & _) & _).
    apply Z.div_le_mono; [lia|]. apply Z.mul_le_mono_nonneg_r; [lia|]. apply Z.div_le_mono; [lia|]. nia.
  Qed.
End index.
