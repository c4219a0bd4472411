(** * AdminProofs: parameters of the pallets change only through calls with the right origin. *)
From Verif Require Import Base MapSum Ledger AmmModel AmmSpec AmmProofs AmmInv AmmProofs2 AmmProofs3 AmmProofs4 StreamModel FarmModel LoansModel LoansSpec LoansProofs LoansProofs2 LoansProofs3 LoansProofs4
  LoansProofs5 LoansProofs6 LoansProofs7 LoansProofs11 AdminSpec.

(** ** lending: the reserves of a market only fall by [reduce_reserves] *)
Section reserves.
  Context (C : loans_cfg) (P : policy).
  Definition rs_le (s s' : loans) : Prop := forall a, reserves_of s a <= reserves_of s' a.
  Lemma rs_refl s : rs_le s s. Proof. intros a. lia. Qed.
  Lemma rs_trans s1 s2 s3 : rs_le s1 s2 -> rs_le s2 s3 -> rs_le s1 s3.
  Proof. intros H1 H2 a. specialize (H1 a); specialize (H2 a). lia. Qed.
  Lemma rs_eq s s' : (forall a, reserves_of s' a = reserves_of s a) -> rs_le s s'. Proof. intros H a. rewrite H. lia. Qed.
  Lemma rs_core s s' : core_eq s s' -> rs_le s s'. Proof. intros (R & E & X & Y & Z & ->). apply rs_eq. reflexivity. Qed.
  Lemma rs_accrue s a s' : linv0 s -> accrue C s a = Ok s' -> rs_le s s'.
  Proof.
    intros Hi H b. pose proof (li_acc s Hi a) as (_ & [Hb _] & _ & [Hx _]).
    destruct (accrue_spec C s a s' H) as (X & _ & (_ & _ & A & _) & F); [|exact Hx|exact Hb|].
    { intros mk Hm. apply (li_mkt s Hi a mk Hm). }
    destruct (decide (b = a)) as [->|Hne]; [exact A|]. unfold reserves_of. rewrite F by auto. lia.
  Qed.
  Lemma rs_redeem_eff s w a v x s' : redeem_eff C P s w a v x s' -> rs_le s s'.
  Proof.
    intros (R & E & X & Y & Z & r & L & _ & _ & _ & _ & _ & _ & _ & _ & _ & _ & ->). apply rs_eq. intros b.
    unfold reserves_of. change (acc_of (st_led ?y L) b) with (acc_of y b). rewrite acc_of_put. destruct (decide _) as [->|]; [reflexivity|].
    unfold put_dep_or_remove. destruct (_ =? 0); reflexivity.
  Qed.
  Lemma rs_redeem_all s w a sel s' x : linv s -> redeem_all_eff C P s w a sel s' x -> rs_le s s'.
  Proof.
    intros Hi (mk & s1 & s2 & r & _ & _ & H1 & _ & H2 & H3). eapply rs_trans; [eapply rs_accrue; eauto; apply Hi|].
    eapply rs_trans; [eapply rs_core; eauto|]. eapply rs_redeem_eff; eauto.
  Qed.
  Lemma rs_repay s w a amt s' : linv s -> do_repay C P s w a amt = Ok s' -> rs_le s s'.
  Proof.
    intros Hi H. apply do_repay_eff in H as (mk & s1 & _ & _ & Hacc & R & E & X & Y & Z & b & L & _ & _ & _ & _ & ->).
    eapply rs_trans; [eapply rs_accrue; eauto; apply Hi|]. apply rs_eq. intros c. unfold reserves_of. rewrite acc_of_put. destruct (decide _) as [->|]; reflexivity.
  Qed.
  Lemma exec_reserves s c s' : linv s -> call_ok C c -> loans_exec C P s c = Ok s' ->
    match c with LReduceReserves _ _ _ _ => True | _ => rs_le s s' end.
  Proof.
    intros Hi Hc H. destruct c; cbn [loans_exec call_ok] in *.
    - unfold add_market in H. bstep H u1 E1. bstep H u2 E2. apply bool_decide_eq_true in E2.
      bstep H u3 E3. bstep H u4 E4. bstep H u5 E5. bstep H u6 E6. bstep H u7 E7. bstep H u8 E8. bstep H u9 E9. bstep H u10 E10. injection H as <-.
      intros b. unfold reserves_of. rewrite acc_of_put. destruct (decide _) as [->|]; cbn [m_res]; [unfold acc_of; cbn; lia|].
      change (acc_of (st_under _ _) b) with (acc_of s b). lia.
    - unfold activate_market in H. bstep H u1 E1. bstep H mk E2. injection H as <-. apply rs_eq. reflexivity.
    - unfold update_rate_model in H. bstep H u1 E1. bstep H u2 E2. bstep H mk E3. injection H as <-. apply rs_eq. reflexivity.
    - unfold update_market in H. bstep H u1 E1. bstep H mk E2. bstep H u3 E3. bstep H u4 E4. bstep H u5 E5. bstep H u6 E6. injection H as <-. apply rs_eq. reflexivity.
    - unfold force_update_market in H. bstep H u1 E1. bstep H u2 E2. bstep H u3 E3. bstep H mk0 E4. injection H as <-. apply rs_eq. reflexivity.
    - unfold add_reward in H. bstep H u1 E1. bstep H L E2. injection H as <-. apply rs_eq. reflexivity.
    - unfold withdraw_missing in H. bstep H u1 E1. bstep H u2 E2. bstep H L E3. injection H as <-. apply rs_eq. reflexivity.
    - unfold update_speed in H. bstep H u1 E1. bstep H mk E2. bstep H s1 E3.
      assert (rs_le s s1) as I1.
      { destruct (_ =? _) in E3; [injection E3 as <-; apply rs_refl|]. bstep E3 t Et. injection E3 as <-. apply upd_supply_index_core in Et.
        eapply rs_trans; [eapply rs_core; eauto|]. apply rs_eq. reflexivity. }
      eapply rs_trans; [exact I1|]. destruct (_ =? _) in H; [injection H as <-; apply rs_refl|]. bstep H t Et. injection H as <-. apply upd_borrow_index_core in Et.
      eapply rs_trans; [eapply rs_core; eauto|]. apply rs_eq. reflexivity.
    - unfold claim_reward in H. bstep H s1 E1. apply collect_all_core in E1. eapply rs_trans; [eapply rs_core; eauto|].
      unfold pay_reward in H. destruct (0 <? _); [|injection H as <-; apply rs_refl]. bstep H L E2. injection H as <-. apply rs_eq. reflexivity.
    - unfold claim_reward_for in H. bstep H s1 E1. apply collect_reward_core in E1. eapply rs_trans; [eapply rs_core; eauto|].
      unfold pay_reward in H. destruct (0 <? _); [|injection H as <-; apply rs_refl]. bstep H L E2. injection H as <-. apply rs_eq. reflexivity.
    - apply do_mint_eff in H as (_ & mk & s1 & R & E & X & Y & Z & r & v & L & _ & _ & _ & Ha & _ & _ & _ & _ & _ & H).
      destruct H as (_ & _ & ->). eapply rs_trans; [eapply rs_accrue; eauto; apply Hi|]. apply rs_eq. intros b.
      unfold reserves_of. rewrite acc_of_put. destruct (decide _) as [->|]; reflexivity.
    - apply fst_res_ok in H as [x H]. unfold redeem in H. bstep H u1 E1. apply do_redeem_eff in H. eapply rs_redeem_all; eauto.
    - apply fst_res_ok in H as [x H]. apply do_redeem_eff in H. eapply rs_redeem_all; eauto.
    - apply fst_res_ok in H as [x H]. apply do_redeem_all_eff in H. eapply rs_redeem_all; eauto.
    - apply do_borrow_eff in H as (mk & s1 & R & E & X & Y & Z & b & val & L & _ & _ & Hacc & _ & _ & _ & _ & _ & _ & _ & _ & ->).
      eapply rs_trans; [eapply rs_accrue; eauto; apply Hi|]. apply rs_eq. intros c. unfold reserves_of. change (acc_of (st_led ?y L) c) with (acc_of y c).
      rewrite acc_of_put. destruct (decide _) as [->|]; reflexivity.
    - eapply rs_repay; eauto.
    - unfold repay_all in H. bstep H mk E1. bstep H s1 E2. bstep H b E3. pose proof (accrue_linv C _ _ _ Hi E2) as Hi1.
      eapply rs_trans; [eapply rs_accrue; [apply Hi|exact E2]|]. eapply rs_repay; eauto.
    - unfold collateral_asset in H. bstep H mk E1. bstep H d E2. bstep H u3 E3. apply do_collateral_eff in H as (mk' & d' & _ & _ & _ & -> & _). apply rs_eq. reflexivity.
    - apply do_collateral_eff in H as (mk' & d' & _ & _ & _ & -> & _). apply rs_eq. reflexivity.
    - unfold liquidate in H. bstep H u0 E0. bstep H s1 E1. bstep H s2 E2. pose proof (accrue_linv C _ _ _ Hi E1) as Hi1.
      apply do_liquidate_eff in H.
      destruct H as (mk & d & r & rv & lv & cp & under & k & inc & b & R & E & X & Y & Z & L & _ & _ & _ & _ & _ & _ & _ & _ & _ & _ & _ & _ & _ & _ & _ & s5 & Hs5 & r' & R' & E' & X' & Y' & Z' & _ & _ & _ & _ & _ & -> & _ & _).
      subst s5. eapply rs_trans; [eapply rs_accrue; [apply Hi|exact E1]|]. eapply rs_trans; [eapply rs_accrue; [apply Hi1|exact E2]|].
      apply rs_eq. intros c. unfold reserves_of.
      match goal with |- m_res ?l = _ => change l with (acc_of (put_acc s2 la (set_borrows (acc_of s2 la) (borrows_of s2 la - amt))) c) end.
      rewrite acc_of_put. destruct (decide _) as [->|]; reflexivity.
    - apply transfer_pt_unfold in H as (R & E & X & Y & Z & u & red & _ & _ & _ & _ & -> & _). apply rs_eq. intros b. cbn zeta. unfold put_dep_or_remove. destruct (_ =? 0); reflexivity.
    - unfold add_reserves in H. bstep H u1 E1. bstep H mk E2. bstep H L E3. bstep H t E4. ok_arith E4. injection H as <-.
      intros b. unfold reserves_of. rewrite acc_of_put. destruct (decide _) as [->|]; [|change (acc_of (st_led s L) b) with (acc_of s b); lia].
      cbn [set_reserves m_res]. destruct Hc as [[Hc _] _]. lia.
    - exact I.
    - unfold reduce_incentive in H. bstep H u1 E1. bstep H u2 E2. bstep H mk E3. bstep H r E4. bstep H v E5. bstep H q E6. destruct q as [s1 x]. bstep H L E7. injection H as <-.
      apply redeem_voucher_eff in E6. eapply rs_trans; [eapply rs_redeem_eff; eauto|]. apply rs_eq. reflexivity.
    - unfold update_free in H. bstep H u1 E1. injection H as <-. apply rs_eq. reflexivity.
    - apply fst_res_ok in H as [x H]. unfold force_redeem, redeem in H. bstep H u1 E1. bstep H u2 E2. apply do_redeem_eff in H. eapply rs_redeem_all; eauto.
    - apply fst_res_ok in H as [x H]. unfold force_redeem_all in H. bstep H u1 E1. apply do_redeem_all_eff in H. eapply rs_redeem_all; eauto.
    - bstep H s1 E1. bstep H b E2. injection H as <-. eapply rs_accrue; eauto. apply Hi.
  Qed.
  Lemma reduce_reserves_full s o r a amt s' : 0 <= amt -> reduce_reserves C P s o r a amt = Ok s' ->
    ln_reserve C o = true /\ amt <= reserves_of s a /\ reserves_of s' a = reserves_of s a - amt /\
    (forall b, b <> a -> reserves_of s' b = reserves_of s b) /\ moved (ln_led s) (ln_led s') a (ln_acct C) r amt.
  Proof.
    intros Ha H. unfold reduce_reserves in H. bstep H u1 E1. bstep H mk E2. bstep H u3 E3. bstep H t E4. ok_arith E4. destruct E4 as [-> _]. bstep H L E5. injection H as <-.
    split; [assumption|]. split; [unfold reserves_of; lia|]. split. { unfold reserves_of. rewrite acc_of_put, decide_True by auto. reflexivity. }
    split. { intros b Hb. unfold reserves_of. rewrite acc_of_put, decide_False by auto. reflexivity. }
    pose proof (transfer_spec _ _ _ _ _ _ _ _ E5) as (HB & _). intros c x. cbn [ln_led]. change (ln_led (put_acc ?y _ _)) with (ln_led y). cbn [ln_led st_led]. rewrite HB. reflexivity.
  Qed.
End reserves.

(** ** farming *)
Section farmadm.
  Context (C : farm_cfg) (P : policy).
  Lemma params_set_pool s k p b : params_of (set_pool s k p) b = if decide (b = k) then Some (pool_params p) else params_of s b.
  Proof. unfold params_of. cbn. destruct (decide _) as [->|]; [rewrite lookup_insert|rewrite lookup_insert_ne by auto]; reflexivity. Qed.
  Lemma get_fpool_ok s k p : get_fpool s k = Ok p -> fpools s !! k = Some p.
  Proof. unfold get_fpool. intros H. apply ok_or_ok in H. exact H. Qed.
  Lemma params_update_reward s w k s1 : update_reward s w k = Ok s1 -> forall b, params_of s1 b = params_of s b.
  Proof.
    unfold update_reward. intros H b. bstep H p E. apply get_fpool_ok in E. bstep H p' E1.
    unfold update_rps in E1. bstep E1 r E2. injection E1 as <-.
    assert (params_of (set_pool s k (mkFPool (fp_active p) (fp_total p) (fp_unlock p) (fp_cool p) (fp_dur p) (fp_finish p) (last_applicable p (f_now s)) (fp_rate p) r)) b = params_of s b) as Hb.
    { rewrite params_set_pool. destruct (decide _) as [->|]; [|reflexivity]. unfold params_of. rewrite E. reflexivity. }
    destruct w as [w|]; [|injection H as <-; exact Hb]. bstep H e E3. bstep H e2 E4. bstep H e3 E5. injection H as <-. exact Hb.
  Qed.
  Lemma farm_params s o s' : farm_step C P s o = Ok s' -> forall k, params_of s' k <> params_of s k ->
    exists og, fop_origin o = Some (og, k) /\ farm_update C og = true.
  Proof.
    intros H k Hk. destruct o; cbn [farm_step fop_origin] in *.
    - unfold f_create in H. bstep H u1 E1. bstep H u2 E2. bstep H u3 E3. bstep H u4 E4. injection H as <-.
      rewrite params_set_pool in Hk. destruct (decide _) as [->|]; [eauto|congruence].
    - unfold f_set_status in H. bstep H u1 E1. bstep H p E2. bstep H u3 E3. injection H as <-.
      rewrite params_set_pool in Hk. destruct (decide _) as [->|]; [eauto|congruence].
    - unfold f_set_cool in H. bstep H u1 E1. bstep H u2 E2. bstep H p E4. bstep H u3 E3. injection H as <-.
      rewrite params_set_pool in Hk. destruct (decide _) as [->|]; [eauto|congruence].
    - unfold f_reset_unlock in H. bstep H u1 E1. bstep H p E2. bstep H u3 E3. destruct (_ <? _) in H; [discriminate|]. injection H as <-.
      rewrite params_set_pool in Hk. destruct (decide _) as [->|]; [eauto|congruence].
    - exfalso. apply Hk. unfold f_deposit in H. bstep H p0 E1. bstep H u2 E2. bstep H s1 E3. bstep H p E4. bstep H u5 E5. bstep H L E6. bstep H t E7. bstep H d E8. injection H as <-.
      rewrite <- (params_update_reward _ _ _ _ E3). apply get_fpool_ok in E4.
      match goal with |- params_of ?x _ = _ => change (params_of x k) with (params_of (set_pool s1 k0 (set_total p t)) k) end.
      rewrite params_set_pool. destruct (decide _) as [->|]; [|reflexivity]. unfold params_of. rewrite E4. reflexivity.
    - exfalso. apply Hk. unfold f_withdraw in H. bstep H p0 E1. bstep H u2 E2. bstep H u2' E2'. bstep H s1 E3. bstep H p E4. bstep H u5 E5. bstep H t E6. bstep H d E7. bstep H q E8. destruct q as [L locks]. injection H as <-.
      rewrite <- (params_update_reward _ _ _ _ E3). apply get_fpool_ok in E4.
      match goal with |- params_of ?x _ = _ => change (params_of x k) with (params_of (set_pool s1 k0 (set_total p t)) k) end.
      rewrite params_set_pool. destruct (decide _) as [->|]; [|reflexivity]. unfold params_of. rewrite E4. reflexivity.
    - exfalso. apply Hk. unfold f_redeem in H. bstep H p0 E1. bstep H t E2. bstep H L E3. injection H as <-. reflexivity.
    - exfalso. apply Hk. unfold f_claim in H. bstep H p0 E1. bstep H s1 E2. bstep H q E3. destruct q as [L q]. injection H as <-.
      rewrite <- (params_update_reward _ _ _ _ E2). reflexivity.
    - unfold f_dispatch in H. bstep H u1 E1. bstep H p0 E2. bstep H u3 E3. bstep H s1 E4. bstep H p E5. bstep H r E6. bstep H f E7. bstep H L E8. injection H as <-.
      match type of Hk with params_of ?x _ <> _ => change (params_of x k) with (params_of (set_pool s1 k0 (mkFPool (fp_active p) (fp_total p) (fp_unlock p) (fp_cool p) duration f (f_now s1) r (fp_rps p))) k) in Hk end.
      rewrite params_set_pool in Hk. destruct (decide _) as [->|]; [eauto|]. exfalso. apply Hk. apply (params_update_reward _ _ _ _ E4).
    - injection H as <-. exfalso. apply Hk. reflexivity.
    - bstep H L E. injection H as <-. exfalso. apply Hk. reflexivity.
    - bstep H L E. injection H as <-. exfalso. apply Hk. reflexivity.
    - bstep H L E. injection H as <-. exfalso. apply Hk. reflexivity.
  Qed.
End farmadm.

(** ** exchange *)
Section ammadm.
  Context (C : amm_cfg) (P : policy).
  Lemma amm_fee_only s o s' : amm_step C P s o = Ok s' ->
    (pfee s', preceiver s') = match o with OFee _ f => (f, preceiver s) | OReceiver _ r => (pfee s, Some r) | _ => (pfee s, preceiver s) end /\
    match o with OFee og _ | OReceiver og _ => fee_origin C og = true | OCreate og _ _ _ _ => create_origin C og = true | _ => True end.
  Proof.
    intros H. destruct o; cbn [amm_step] in H.
    - destruct (step_fee_settings C P s (OAdd who pair desired minimum) s' I H) as [-> ->]. auto.
    - destruct (step_fee_settings C P s (ORemove who pair liquidity) s' I H) as [-> ->]. auto.
    - destruct (step_fee_settings C P s (OCreate o pair amounts receiver lp) s' I H) as [-> ->]. split; [reflexivity|].
      destruct pair as [a b]. exact (proj1 (create_pool_fresh C P s o a b amounts receiver lp s' H)).
    - destruct (step_fee_settings C P s (OSwap now who pair amount_in) s' I H) as [-> ->]. auto.
    - unfold update_protocol_fee in H. bstep H u1 E1. split; [|assumption]. try (bstep H u2 E2). injection H as <-. reflexivity.
    - unfold update_protocol_fee_receiver in H. bstep H u1 E1. injection H as <-. auto.
    - bstep H L E. injection H as <-. auto.
    - bstep H L E. injection H as <-. auto.
    - bstep H L E. injection H as <-. auto.
  Qed.
  Lemma amm_new_pool s o s' k : AmmSpec.cfg_ok C -> amm_inv C s -> amm_op_ok C s o -> amm_step C P s o = Ok s' -> pools s !! k = None -> pools s' !! k <> None ->
    exists og a b amts r lp, o = OCreate og (a, b) amts r lp /\ k = pair_key a b /\ create_origin C og = true.
  Proof.
    intros HC Hi Hok H Hn Hs. pose proof (inv_nonneg C s Hi) as Hnn.
    assert (Hset : forall k' p0 p' L, pools s !! k' = Some p0 -> s' = AmmModel.set_pool s k' p' L -> False).
    { intros k' p0 p' L Hp ->. cbn in Hs. destruct (decide (k' = k)) as [->|Hne]; [congruence|]. rewrite lookup_insert_ne in Hs by auto. congruence. }
    destruct o; cbn [amm_step amm_op_ok] in H, Hok.
    - destruct pair as [a b]. exfalso. destruct Hok as (_ & [Hd1 _] & [Hd2 _]).
      pose proof (add_liquidity_spec C P s who a b desired minimum s' Hnn Hd1 Hd2 H) as (p & p1 & L1 & p2 & L2 & ib & iq & f & _ & Hp & _ & _ & _ & _ & _ & _ & _ & Hs'). eauto.
    - destruct pair as [a b]. exfalso.
      pose proof (remove_liquidity_spec C P s who a b liquidity s' H) as (p & p1 & L1 & p2 & L2 & f & x & y & _ & Hp & _ & _ & Hs'). eauto.
    - destruct pair as [a b]. pose proof (create_pool_fresh C P s o a b amounts receiver lp s' H) as (Ho & _ & _ & _ & p & Hp & _).
      exists o, a, b, amounts, receiver, lp. split; [reflexivity|]. split; [|exact Ho]. rewrite Hp in Hs.
      destruct (decide (pair_key a b = k)) as [->|Hne]; [reflexivity|]. rewrite lookup_insert_ne in Hs by auto. congruence.
    - destruct pair as [a b]. bstep H q E. destruct q as [out s1]. injection H as <-. exfalso.
      pose proof (do_swap_spec C P now s who a b amount_in out s1 E) as (p & p1 & p2 & L1 & L2 & _ & Hp & Hs' & _). eauto.
    - unfold update_protocol_fee in H. bstep H u1 E1. try (bstep H u2 E2). injection H as <-. cbn in Hs. congruence.
    - unfold update_protocol_fee_receiver in H. bstep H u1 E1. injection H as <-. cbn in Hs. congruence.
    - bstep H L E. injection H as <-. cbn in Hs. congruence.
    - bstep H L E. injection H as <-. cbn in Hs. congruence.
    - bstep H L E. injection H as <-. cbn in Hs. congruence.
  Qed.
End ammadm.

(** ** streaming *)
Section stradm.
  Context (C : str_cfg) (P : policy).
  Lemma do_create_min s a b c d e f g id s1 : do_create C P s a b c d e f g = Ok (id, s1) -> min_deposit s1 = min_deposit s.
  Proof.
    unfold do_create. intros H. bstep H u1 E1. bstep H u2 E2. bstep H u3 E3. bstep H u4 E4. bstep H L E5. bstep H n E6. bstep H q E7. destruct q as [ss l].
    injection H as _ <-. reflexivity.
  Qed.
  Lemma str_min_deposit s o s' : str_step C P s o = Ok s' ->
    match o with
    | SSetMin og a v => update_origin C og = true /\ min_deposit s' = <[a := v]> (min_deposit s)
    | _ => min_deposit s' = min_deposit s
    end.
  Proof.
    intros H. destruct o; cbn [str_step] in H.
    - unfold create in H. bstep H m E1. bstep H u2 E2. bstep H u3 E3. bstep H q E4. destruct q as [id s1]. bstep H l1 E5. bstep H l2 E6. injection H as <-.
      exact (do_create_min _ _ _ _ _ _ _ _ _ _ E4).
    - unfold trait_create in H. bstep H u3 E3. bstep H q E4. destruct q as [id s1]. bstep H l2 E6. injection H as <-.
      exact (do_create_min _ _ _ _ _ _ _ _ _ _ E4).
    - unfold cancel in H. bstep H st E1. bstep H u2 E2. bstep H u3 E3. bstep H u4 E4. bstep H sb E5. bstep H rb E6. bstep H L1 E7. bstep H L2 E8. bstep H q E9. destruct q as [ss l]. injection H as <-. reflexivity.
    - unfold withdraw in H. bstep H st E1. bstep H u2 E2. bstep H u3 E3. bstep H st0 E3'. bstep H u4 E4. bstep H rb E6. bstep H u7 E7. bstep H st1 E8. bstep H q E9. destruct q as [ss l]. bstep H L E10. injection H as <-. reflexivity.
    - unfold set_minimum_deposit in H. bstep H u1 E1. injection H as <-. auto.
    - injection H as <-. reflexivity.
    - bstep H L E. injection H as <-. reflexivity.
    - bstep H L E. injection H as <-. reflexivity.
    - bstep H L E. injection H as <-. reflexivity.
  Qed.
End stradm.
