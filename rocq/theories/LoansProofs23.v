(** * LoansProofs23: progress of liquidations. *)
From Verif Require Import Base MapSum Ledger AmmModel AmmProofs5 LoansModel LoansSpec LoansSpec2 LoansSpec3 LoansProofs LoansProofs2 LoansProofs3 LoansProofs4 LoansProofs5
  LoansProofs8 LoansProofs9 LoansProofs12 LoansProofs13 LoansProofs14 LoansProofs15 LoansProofs16 LoansProofs17 LoansProofs18 LoansProofs19 LoansProofs20 LoansProofs21 LoansProofs22.

Section lq.
  Context (C : loans_cfg) (P : policy).

  Lemma dist_prog1 s a w : rinv s -> r_si (rew_of s a) <= U128MAX -> 0 <= vouchers s a w ->
    racc_of s w + vouchers s a w * (r_si (rew_of s a) - six_of s a w) / RSCALE <= U128MAX ->
    exists t, dist_supplier s a w = Ok (st_racc (st_six s (<[(a, w) := r_si (rew_of s a)]> (ln_six s))) (<[w := t]> (ln_racc s))).
  Proof.
    intros R HU HV HT. unfold dist_supplier. cbn zeta. fold (vouchers s a w). pose proof (ri_six s R a w). pose proof (ri_racc s R w). pose proof RSCALE_pos.
    assert (0 <= vouchers s a w * (r_si (rew_of s a) - six_of s a w) / RSCALE) by (apply Z.div_pos; [apply Z.mul_nonneg_nonneg; lia|lia]).
    unfold checked_sub. rewrite chk_ok by lia. cbn [ok_or rbind]. unfold reward_delta. rewrite chk_ok by lia. cbn [ok_or rbind]. unfold checked_add. rewrite chk_ok by lia. cbn. eauto.
  Qed.
  Lemma exrate_sum s s' a : supply_of s' a = supply_of s a -> reserves_of s' a = reserves_of s a ->
    bal (ln_led s') a (ln_acct C) + borrows_of s' a = bal (ln_led s) a (ln_acct C) + borrows_of s a -> exrate C s' a = exrate C s a.
  Proof.
    intros E1 E2 E3. unfold exrate, calc_exrate. fold (supply_of s' a) (supply_of s a) (borrows_of s' a) (borrows_of s a) (reserves_of s' a) (reserves_of s a). unfold cash, checked_add.
    rewrite E1, E2, E3. reflexivity.
  Qed.
  Definition s_part (s : loans) (a : asset) (w : account) : Z := vouchers s a w * (supply_index_now s a - six_of s a w) / RSCALE.
  Definition b_part (s : loans) (a : asset) (w : account) : Z := at_index_one s a (debt_now s a w) * (borrow_index_now s a - bix_of s a w) / RSCALE.

  Lemma seize_prog t liq w la ca amt under mk r :
    linv t -> rinv t -> lenient P -> FDIV <= index_of t la -> liq <> w -> inc_acct C <> w -> inc_acct C <> liq -> liq <> ln_acct C ->
    debt_now t la liq <= U128MAX -> debt_now t la w <= U128MAX -> borrow_index_now t la <= U128MAX -> supply_index_now t ca <= U128MAX ->
    racc_of t liq + b_part t la liq + s_part t ca liq <= U128MAX -> racc_of t w + s_part t ca w <= U128MAX -> racc_of t (inc_acct C) + s_part t ca (inc_acct C) <= U128MAX ->
    0 <= amt <= bal (ln_led t) la liq -> amt <= debt_now t la w -> amt <= borrows_of t la ->
    exrate C t ca = Ok r -> 0 < r -> 0 <= under -> under * FDIV / r <= vouchers t ca w -> FDIV <= mk_inc mk -> is_permill (mk_incres mk) ->
    exists s', liquidated_transfer C P t liq w la ca amt under mk = Ok s'.
  Proof.
    intros Hi R LP HX N1 N2 N3 N4 HD1 HD2 F1 F2 F3 F4 F5 [A0 A1] A2 A3 Er Hr Hu Hk Hinc Hres. pose proof RSCALE_pos as HRS. pose proof FDIV_pos as HFD.
    assert (SP : forall x, 0 <= s_part t ca x).
    { intros x. unfold s_part. pose proof (ri_six t R ca x). pose proof (li_dep t (proj1 Hi) ca x) as [V0 _]. destruct (ri_block t R ca) as [Hb _]. destruct (ri_speed t R ca) as [[S0 _] _]. destruct (li_acc t (proj1 Hi) ca) as ((U0 & _) & _).
      apply Z.div_pos; [|lia]. apply Z.mul_nonneg_nonneg; [exact V0|]. unfold supply_index_now. cbn zeta. destruct (_ || _) eqn:E; [lia|]. apply orb_false_elim in E as [_ E].
      assert (0 <= (ln_block t - r_sb (rew_of t ca)) * r_ss (rew_of t ca) * 10 ^ 12 / supply_of t ca) by (apply Z.div_pos; [apply Z.mul_nonneg_nonneg; [apply Z.mul_nonneg_nonneg|]; lia|lia]). lia. }
    destruct (dist_b_prog0 t la liq Hi R HX HD1 F1) as (t1 & t2 & E1 & E2). { specialize (SP liq). unfold b_part in F3. lia. }
    unfold liquidated_transfer. rewrite E1. cbn [rbind]. rewrite E2. cbn [rbind].
    destruct (upd_b_now t la t1 Hi R ltac:(lia) E1) as (B1 & B2 & B3 & B4 & B5 & B6 & B7 & (W & HW)).
    assert (R1 : rinv t1). { eapply rinv_upd_b; [|exact R|exact E1]. pose proof (ri_block t R la). lia. }
    assert (R2 : rinv t2) by (eapply rinv_dist_b; eauto).
    assert (T2 : exists z m, z = b_part t la liq /\ t2 = st_racc (st_bix t1 m) (<[liq := racc_of t liq + z]> (ln_racc t1))).
    { unfold dist_borrower in E2. cbn zeta in E2. bstep E2 d D1. bstep E2 b D0. bstep E2 sh D4. bstep E2 x D2. bstep E2 q D3. injection E2 as <-. destruct D1 as [-> D1], D3 as [-> D3].
      assert (borrow_balance t1 liq la = Ok (debt_now t la liq)) as Ebal. { rewrite HW. change (borrow_balance (st_rew t W) liq la) with (borrow_balance t liq la). apply balance_prog; auto. }
      rewrite Ebal in D0. injection D0 as <-. destruct (li_acc t (proj1 Hi) la) as (_ & _ & _ & HI). assert (index_of t1 la = index_of t la) as Eix by (rewrite HW; reflexivity).
      assert (0 <= debt_now t la liq) as D0. { unfold debt_now. cbn zeta. destruct (_ =? 0) eqn:Eb; [lia|]. destruct (li_debt t (proj1 Hi) la liq) as ((Q0 & Q1) & (I0 & I1) & I2). destruct HI as [HI0 _]. apply Z.div_pos; [|lia]. apply Z.mul_nonneg_nonneg; [apply Z.div_pos; nia|lia]. }
      destruct (base_prog t la (debt_now t la liq) HI HX (conj D0 HD1)) as [Ebb _]. fold (index_of t1 la) in D4. rewrite Eix, Ebb in D4. injection D4 as <-.
      unfold reward_delta in D2. apply ok_or_ok in D2. apply chk_some in D2 as [-> D2]. eexists _, _. split; [|assert (racc_of t1 liq = racc_of t liq) as -> by (rewrite HW; reflexivity); reflexivity].
      unfold b_part. rewrite B1. assert (bix_of t1 la liq = bix_of t la liq) as -> by (rewrite HW; reflexivity). reflexivity. }
    destruct T2 as (z & m & Hz & T2).
    assert (HL : ln_led t2 = ln_led t) by (rewrite T2, HW; reflexivity). rewrite HL.
    destruct (transfer_prog P (ln_led t) la liq (ln_acct C) amt false LP A0 A1) as [L EL]. rewrite EL. cbn [rbind].
    pose proof (transfer_moved P _ _ _ _ _ _ _ EL) as ML.
    assert (Eb : borrow_balance (st_led t2 L) w la = Ok (debt_now t la w)). { rewrite T2, HW. change (borrow_balance t w la = Ok (debt_now t la w)). apply balance_prog; auto. }
    rewrite Eb. cbn [rbind]. unfold checked_sub at 1. rewrite chk_ok by lia. cbn [ok_or rbind].
    assert (Eac : forall b, acc_of (st_led t2 L) b = acc_of t b) by (intros b; rewrite T2, HW; reflexivity).
    rewrite Eac. fold (borrows_of t la). destruct (li_acc t (proj1 Hi) la) as (_ & (HBo0 & HBo1) & _ & _). unfold checked_sub at 1. rewrite chk_ok by lia. cbn [ok_or rbind].
    set (t4 := put_debt _ la w _). change (acc_of t4 la) with (acc_of (st_led t2 L) la). rewrite Eac. set (t5 := put_acc t4 la _).
    assert (G5 : forall b, acc_of t5 b = if decide (b = la) then set_borrows (acc_of t la) (borrows_of t la - amt) else acc_of t b).
    { intros b. unfold t5. rewrite acc_of_put. destruct (decide _); [reflexivity|]. apply Eac. }
    assert (S5 : forall b, supply_of t5 b = supply_of t b). { intros b. unfold supply_of. rewrite G5. destruct (decide (b = la)) as [->|]; reflexivity. }
    assert (Q5 : forall b, reserves_of t5 b = reserves_of t b). { intros b. unfold reserves_of. rewrite G5. destruct (decide (b = la)) as [->|]; reflexivity. }
    assert (D5 : forall b x, dep_of t5 b x = dep_of t b x) by (intros b x; unfold t5, t4; rewrite T2, HW; reflexivity).
    assert (R5 : rinv t5). { eapply rinv_same; [|exact R2]. repeat split. }
    assert (V5 : forall b x, vouchers t5 b x = vouchers t b x) by (intros b x; unfold vouchers; rewrite D5; reflexivity).
    assert (X5 : forall b x, six_of t5 b x = six_of t b x) by (intros b x; unfold t5, t4; rewrite T2, HW; reflexivity).
    assert (I5 : supply_index_now t5 ca = supply_index_now t ca).
    { unfold supply_index_now. cbn zeta. rewrite S5. assert (ln_block t5 = ln_block t) as -> by (unfold t5, t4; rewrite T2, HW; reflexivity).
      assert (rew_of t5 ca = rew_of t1 ca) as -> by (unfold t5, t4; rewrite T2; reflexivity). destruct (decide (ca = la)) as [->|Hne]; [rewrite B3, B5, B6; reflexivity|]. rewrite B7 by exact Hne. reflexivity. }
    assert (K5 : forall x, racc_of t5 x = if decide (x = liq) then racc_of t liq + z else racc_of t x).
    { intros x. unfold t5, t4. rewrite T2. unfold racc_of at 1. cbn [ln_racc put_acc st_acc put_debt st_debts st_led st_racc]. rewrite racc_put. destruct (decide _); [reflexivity|]. rewrite HW. reflexivity. }
    assert (P5 : exists t6, upd_supply_index t5 ca = Ok t6).
    { (* only the index matters *)
      destruct (ri_block t5 R5 ca) as [Hb _]. destruct (ri_speed t5 R5 ca) as [[S0 _] _]. pose proof (ri_six t5 R5 ca 0) as [Z1 Z2]. destruct (li_acc t (proj1 Hi) ca) as ((U0 & U1) & _). pose proof I5 as F2'. rewrite <- F2' in F2. rewrite <- S5 in U0.
      unfold upd_supply_index. cbn zeta. unfold saturating_sub. destruct (Z.max 0 _ =? 0) eqn:E0; [eauto|]. rewrite Z.max_r by lia. unfold supply_index_now in F2. cbn zeta in F2.
      destruct (r_ss (rew_of t5 ca) =? 0) eqn:Es; [cbn [rbind]; eauto|]. cbn [orb] in F2. unfold delta_index. fold (supply_of t5 ca).
      destruct (supply_of t5 ca =? 0) eqn:Eu.
      - cbn [rbind]. unfold checked_add. rewrite chk_ok by lia. cbn. eauto.
      - replace (10 ^ 12) with RSCALE in F2 by (rewrite RSCALE_val; reflexivity).
        assert (0 <= (ln_block t5 - r_sb (rew_of t5 ca)) * r_ss (rew_of t5 ca) * RSCALE / supply_of t5 ca) by (apply Z.div_pos; [apply Z.mul_nonneg_nonneg; [apply Z.mul_nonneg_nonneg|]; lia|lia]).
        rewrite chk_ok by lia. cbn [ok_or rbind]. unfold checked_add. rewrite chk_ok by lia. cbn. eauto. }
    destruct P5 as [t6 E6]. rewrite E6. cbn [rbind]. destruct (upd_s_now0 t5 ca t6 R5 E6) as (J1 & _ & _ & _ & _ & _ & _ & (W6 & HW6)). rewrite I5 in J1.
    assert (R6 : rinv t6). { eapply rinv_upd_s; [|exact R5|exact E6]. pose proof (ri_block t5 R5 ca). lia. }
    assert (V6 : forall x, vouchers t6 ca x = vouchers t ca x) by (intros x; rewrite HW6; change (vouchers (st_rew t5 W6) ca x) with (vouchers t5 ca x); apply V5).
    assert (X6 : forall x, six_of t6 ca x = six_of t ca x) by (intros x; rewrite HW6; change (six_of (st_rew t5 W6) ca x) with (six_of t5 ca x); apply X5).
    assert (K6 : forall x, racc_of t6 x = if decide (x = liq) then racc_of t liq + z else racc_of t x) by (intros x; rewrite HW6; change (racc_of (st_rew t5 W6) x) with (racc_of t5 x); apply K5).
    pose proof (fun x => proj1 (li_dep t (proj1 Hi) ca x)) as V0. fold (vouchers t ca) in V0.
    destruct (dist_prog1 t6 ca liq R6) as [k7 E7]; [rewrite J1; exact F2|rewrite V6; apply V0|rewrite V6, X6, K6, J1, decide_True by reflexivity; fold (s_part t ca liq); rewrite Hz; exact F3|].
    rewrite E7. cbn [rbind]. pose proof (rinv_dist_s _ _ _ _ R6 E7) as R7. set (t7 := st_racc (st_six t6 _) _) in *.
    assert (X7 : six_of t7 ca w = six_of t ca w). { unfold t7, six_of at 1. cbn [ln_six st_racc st_six]. rewrite lookup_insert_ne by congruence. apply X6. }
    assert (X7i : six_of t7 ca (inc_acct C) = six_of t ca (inc_acct C)). { unfold t7, six_of at 1. cbn [ln_six st_racc st_six]. rewrite lookup_insert_ne by congruence. apply X6. }
    assert (K7 : forall x, x <> liq -> racc_of t7 x = racc_of t x). { intros x Hx. unfold t7, racc_of at 1. cbn [ln_racc st_racc st_six]. rewrite lookup_insert_ne by congruence. fold (racc_of t6 x). rewrite K6, decide_False by exact Hx. reflexivity. }
    assert (J7 : rew_of t7 ca = rew_of t6 ca) by reflexivity. assert (V7 : forall x, vouchers t7 ca x = vouchers t ca x) by (intros x; apply V6).
    destruct (dist_prog1 t7 ca w R7) as [k8 E8]; [rewrite J7, J1; exact F2|rewrite V7; apply V0|rewrite V7, X7, K7, J7, J1 by congruence; exact F4|].
    rewrite E8. cbn [rbind]. pose proof (rinv_dist_s _ _ _ _ R7 E8) as R8. set (t8 := st_racc (st_six t7 _) _) in *.
    assert (X8 : six_of t8 ca (inc_acct C) = six_of t ca (inc_acct C)). { unfold t8, six_of at 1. cbn [ln_six st_racc st_six]. rewrite lookup_insert_ne by congruence. apply X7i. }
    assert (K8 : racc_of t8 (inc_acct C) = racc_of t (inc_acct C)). { unfold t8, racc_of at 1. cbn [ln_racc st_racc]. rewrite lookup_insert_ne by congruence. apply K7. exact N3. }
    assert (J8 : rew_of t8 ca = rew_of t7 ca) by reflexivity. assert (V8 : forall x, vouchers t8 ca x = vouchers t ca x) by (intros x; apply V7).
    destruct (dist_prog1 t8 ca (inc_acct C) R8) as [k9 E9]; [rewrite J8, J7, J1; exact F2|rewrite V8; apply V0|rewrite V8, X8, K8, J8, J7, J1; exact F5|].
    rewrite E9. cbn [rbind]. set (t9 := st_racc (st_six t8 _) _) in *.
    assert (D9 : forall x, dep_of t9 ca x = dep_of t ca x). { intros x. change (dep_of t9 ca x) with (dep_of t6 ca x). rewrite HW6. change (dep_of (st_rew t5 W6) ca x) with (dep_of t5 ca x). apply D5. }
    assert (Ex9 : exrate C t9 ca = Ok r).
    { rewrite <- Er. change (exrate C t9 ca) with (exrate C t6 ca). rewrite HW6. change (exrate C (st_rew t5 W6) ca) with (exrate C t5 ca). apply exrate_sum; [apply S5|apply Q5|].
      assert (ln_led t5 = L) as -> by reflexivity. rewrite ML. unfold borrows_of at 1. rewrite G5. unfold at_. destruct (decide (ca = la)) as [->|Hne].
      - rewrite (bool_decide_false (la = la /\ ln_acct C = liq)) by (intros [_ Q]; congruence). rewrite bool_decide_true by auto. cbn. lia.
      - rewrite !bool_decide_false by (intros [Q _]; congruence). unfold borrows_of. lia. }
    rewrite Ex9. cbn [rbind]. unfold to_voucher, f_checked_div. replace (r =? 0) with false by lia.
    assert (0 <= under * FDIV / r) as Hk0 by (apply Z.div_pos; nia). pose proof (li_dep t (proj1 Hi) ca w) as [_ VU]. unfold vouchers in Hk, VU. rewrite chk_ok by lia. cbn [ok_or rbind].
    set (k := under * FDIV / r) in *. clearbody k. rewrite D9. unfold checked_sub at 1. rewrite chk_ok by lia. cbn [ok_or rbind]. replace (mk_inc mk =? 0) with false by lia.
    assert (0 <= k * FDIV / mk_inc mk <= k) as Hq. { split; [apply Z.div_pos; nia|]. apply Z.div_le_upper_bound; nia. }
    rewrite chk_ok by lia. cbn [ok_or rbind]. set (q := k * FDIV / mk_inc mk) in *. clearbody q.
    assert (0 <= p_mul_floor (mk_incres mk) q <= q) as Hi2. { unfold p_mul_floor. destruct Hres as [H0 H1]. pose proof PMILL_val. split; [apply Z.div_pos; nia|]. apply Z.div_le_upper_bound; nia. }
    set (h := p_mul_floor (mk_incres mk) q) in *. clearbody h. unfold raw_sub, checked_sub. rewrite chk_ok by lia. cbn [unwrap rbind].
    pose proof (two_vouchers t ca liq w Hi N1) as T1. pose proof (two_vouchers t ca (inc_acct C) w Hi N2) as T2'. destruct (li_acc t (proj1 Hi) ca) as ((_ & SU) & _). unfold vouchers in T1, T2', V0.
    pose proof (V0 liq). pose proof (V0 (inc_acct C)).
    rewrite dep_of_put, decide_False by congruence. rewrite D9. unfold checked_add. rewrite chk_ok by lia. cbn [ok_or rbind].
    rewrite dep_of_put, decide_False by congruence. rewrite dep_of_put, decide_False by congruence. rewrite D9. rewrite chk_ok by lia. cbn [ok_or rbind]. eauto.
  Qed.

  Lemma value_prog s a x : 0 < price_of s a -> 0 <= x -> value_of s a x <= U128MAX -> asset_value s a x = Ok (value_of s a x).
  Proof.
    intros Hp Hx HV. unfold asset_value, get_price. unfold price_of in Hp. unfold value_of, price_of in *. destruct (ln_price s !! a) as [p|]; [|cbn in Hp; lia]. cbn [default] in *. cbn [ok_or rbind].
    unfold id in *. replace (p =? 0) with false by lia. cbn [negb ensure rbind]. unfold f_checked_mul. rewrite chk_ok; [reflexivity|]. pose proof FDIV_pos. split; [apply Z.div_pos; nia|exact HV].
  Qed.
  Lemma price_prog s a : 0 < price_of s a -> get_price s a = Ok (price_of s a).
  Proof. intros Hp. unfold get_price. unfold price_of in *. destruct (ln_price s !! a) as [p|]; [|cbn in Hp; lia]. cbn [default] in *. unfold id in *. cbn [ok_or rbind]. replace (p =? 0) with false by lia. reflexivity. Qed.

  Lemma liq_prog t liq w la ca amt mk mc q :
    linv t -> rinv t -> floor_ok C t -> lenient P -> ln_mkts t !! la = Some mk -> mk_state mk = Active -> ln_mkts t !! ca = Some mc -> mk_state mc = Active -> (la = lf_asset C -> lf_base C t w = Ok (lf_collateral_worth C t w)) ->
    liq <> w -> inc_acct C <> w -> inc_acct C <> liq -> liq <> ln_acct C ->
    threshold_liquidity C t w = Ok q -> threshold_worth C t w < borrow_worth t w ->
    0 < price_of t la -> 0 < price_of t ca -> value_of t la (debt_now t la w) <= U128MAX ->
    debt_now t la liq <= U128MAX -> debt_now t la w <= U128MAX -> borrow_index_now t la <= U128MAX -> supply_index_now t ca <= U128MAX ->
    racc_of t liq + b_part t la liq + s_part t ca liq <= U128MAX -> racc_of t w + s_part t ca w <= U128MAX -> racc_of t (inc_acct C) + s_part t ca (inc_acct C) <= U128MAX ->
    0 <= amt <= bal (ln_led t) la liq -> amt <= debt_now t la w -> amt <= borrows_of t la ->
    value_of t la amt <= p_mul_ceil (mk_close mk) (liquidatable_worth C t la w) -> FDIV <= mk_inc mk ->
    is_collateral t ca w = true -> 0 < supply_of t ca -> 0 <= backing C t ca < supply_of t ca -> bal (ln_led t) ca (ln_acct C) + borrows_of t ca <= U128MAX ->
    value_of t la amt * mk_inc mk / FDIV <= value_of t ca (vouchers t ca w * rate_of C t ca / FDIV) -> value_of t ca (vouchers t ca w * rate_of C t ca / FDIV) <= U128MAX ->
    exists s', do_liquidate C P t liq w la amt ca = Ok s'.
  Proof.
    intros Hi R HFl LP Hm HA Hm2 HA2 Nl N1 N2 N3 N4 HT Hw Pl Pc Vd HD1 HD2 F1 F2 F3 F4 F5 A0 A2 A3 Hcl Hinc Hcol HS HB HM Hsz HcU. pose proof FDIV_pos as HF.
    destruct (li_mkt t (proj1 Hi) la mk Hm) as [(_ & _ & _ & TC & TI & _) HX]. destruct (exrate_prog C t ca Hi HFl HS HB HM) as [Er Hr].
    assert (Va : value_of t la amt <= value_of t la (debt_now t la w)). { unfold value_of. apply Z.div_le_mono; [lia|]. apply Z.mul_le_mono_nonneg_l; lia. }
    assert (Va0 : 0 <= value_of t la amt). { unfold value_of. apply Z.div_pos; nia. }
    unfold do_liquidate. rewrite (active_prog t la mk Hm HA), (active_prog t ca mc Hm2 HA2). cbn [rbind]. unfold get_market. rewrite Hm. cbn [ok_or rbind]. replace (w =? liq) with false by lia. cbn [negb ensure rbind].
    assert (Hal : liquidate_allowed C t w la amt mk = Ok tt).
    { unfold liquidate_allowed. rewrite HT. cbn [rbind]. unfold threshold_liquidity in HT. bstep HT B E1. bstep HT Co E2. bstep HT lB E3. bstep HT lC E4. injection HT as <-.
      apply total_borrowed_of in E1. apply total_threshold_of in E2. subst B Co. unfold liquidity4. replace (borrow_worth t w <? threshold_worth C t w) with false by lia.
      assert (Q : forall l1 l2 : Z, (let* _ := ensure (negb ((borrow_worth t w - threshold_worth C t w =? 0) && (l1 <=? l2))) "InsufficientShortfall" in
        let* b := borrow_balance t w la in let* bv := asset_value t la b in let* rv := asset_value t la amt in
        let* eff := (if la =? lf_asset C then let* base := lf_base C t w in Ok (if base <? bv then bv - base else 0) else Ok bv) in
        ensure (negb (p_mul_ceil (mk_close mk) eff <? rv)) "TooMuchRepay") = Ok tt).
      { intros l1 l2. replace (borrow_worth t w - threshold_worth C t w =? 0) with false by lia. cbn [andb negb ensure rbind].
        rewrite (balance_prog t la w Hi HD2). cbn [rbind]. rewrite (value_prog t la (debt_now t la w)), (value_prog t la amt) by lia. cbn [rbind]. unfold liquidatable_worth in Hcl. destruct (la =? lf_asset C) eqn:El.
        - rewrite Nl by lia. cbn [rbind]. replace (if lf_collateral_worth C t w <? _ then _ else _) with (Z.max 0 (value_of t la (debt_now t la w) - lf_collateral_worth C t w)) by (destruct (lf_collateral_worth C t w <? _) eqn:?; lia).
          replace (p_mul_ceil _ _ <? _) with false by lia. reflexivity.
        - cbn [rbind]. replace (p_mul_ceil _ _ <? _) with false by lia. reflexivity. }
      destruct (lB <? lC); apply Q. }
    rewrite Hal. cbn [rbind]. fold (is_collateral t ca w). rewrite Hcol. cbn [ensure rbind]. rewrite Er. cbn [rbind].
    pose proof (li_dep t (proj1 Hi) ca w) as [V0 V1]. fold (vouchers t ca w). fold (vouchers t ca w) in V0, V1.
    assert (HU : FDIV <= U128MAX) by (apply Z.leb_le; vm_compute; reflexivity).
    assert (0 <= vouchers t ca w * rate_of C t ca / FDIV <= vouchers t ca w) as Hx. { split; [apply Z.div_pos; nia|]. apply Z.div_le_upper_bound; nia. }
    unfold to_underlying, f_checked_mul_int. rewrite Z.mul_comm in Hx. replace (vouchers t ca w * rate_of C t ca) with (rate_of C t ca * vouchers t ca w) in * by lia. rewrite chk_ok by lia. cbn [ok_or rbind].
    set (x := rate_of C t ca * vouchers t ca w / FDIV) in *. rewrite (value_prog t ca x), (value_prog t la amt) by lia. cbn [rbind]. unfold f_checked_mul.
    assert (0 <= value_of t la amt * mk_inc mk / FDIV) as Hl0 by (apply Z.div_pos; nia). rewrite chk_ok by lia. cbn [ok_or rbind]. replace (_ <? _) with false by lia. cbn [negb ensure rbind].
    rewrite (price_prog t ca Pc). cbn [rbind]. unfold f_checked_div. replace (price_of t ca =? 0) with false by lia. set (lv := value_of t la amt * mk_inc mk / FDIV) in *. clearbody lv.
    assert (Hux : 0 <= lv * FDIV / price_of t ca <= x).
    { split; [apply Z.div_pos; nia|]. apply Z.div_le_upper_bound; [lia|]. unfold value_of in Hsz. pose proof (Z.mul_div_le (price_of t ca * x) FDIV HF). nia. }
    rewrite chk_ok by lia. cbn [ok_or rbind].
    apply (seize_prog t liq w la ca amt _ mk (rate_of C t ca)); auto; try lia.
    apply Z.div_le_upper_bound; [lia|]. etransitivity; [apply Z.mul_le_mono_nonneg_r; [lia|apply Hux]|]. unfold x. pose proof (Z.mul_div_le (rate_of C t ca * vouchers t ca w) FDIV HF). lia.
  Qed.
End lq.
