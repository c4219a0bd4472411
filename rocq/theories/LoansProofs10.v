(** * LoansProofs10: solvency of accounts (C31), in the words of the specification. *)
From Verif Require Import Base MapSum Ledger AmmModel LoansModel LoansSpec LoansProofs LoansProofs2 LoansProofs3 LoansProofs4 LoansProofs5 LoansProofs6 LoansProofs8 LoansProofs9.

Section solv2.
  Context (C : loans_cfg) (P : policy).

  Lemma price_nonneg s a : linv0 s -> 0 <= price_of s a.
  Proof. intros Hi. unfold price_of. destruct (ln_price s !! a) as [p|] eqn:E; cbn; [|lia]. pose proof (li_price s Hi a p E) as [? _]. lia. Qed.
  Lemma value_add s a x y : value_of s a (x + y) <= value_of s a x + value_of s a y + 1.
  Proof. unfold value_of. apply floor_add2, FDIV_pos. Qed.

  Lemma borrow_worths s w a amt s' : linv s -> is_u128 amt -> w <> ln_acct C -> do_borrow C P s w a amt = Ok s' ->
    exists s1, accrue C s a = Ok s1 /\
      collateral_worth C s' w = collateral_worth C s1 w /\ lf_collateral_worth C s' w = lf_collateral_worth C s1 w /\
      borrow_worth s' w <= borrow_worth s1 w + value_of s1 a amt + 1 /\
      (a = lf_asset C -> lf_debt_worth C s' w <= lf_debt_worth C s1 w + value_of s1 a amt + 1) /\
      0 <= value_of s1 a amt /\
      (a <> lf_asset C -> Z.max 0 (lf_collateral_worth C s1 w - lf_debt_worth C s1 w) + value_of s1 a amt <= Z.max 0 (collateral_worth C s1 w - borrow_worth s1 w)) /\
      (a = lf_asset C -> value_of s1 a amt <= Z.max 0 (collateral_worth C s1 w - borrow_worth s1 w) \/
                         value_of s1 a amt <= Z.max 0 (lf_collateral_worth C s1 w - lf_debt_worth C s1 w)).
  Proof.
    intros Hi Ha Hw H. pose proof (borrow_full C P s w a amt s' Hi Ha Hw H) as (mk0 & s10 & b0 & _ & _ & Hacc0 & Hb0 & Hb' & HM & Hbo & _ & Hre & _ & Hdf & Hix & Hdep).
    apply do_borrow_eff in H as (mk & s1 & R & E & X & Y & Z & b & val & L & Hm & Hact & Hacc & Hcap & Hcash & Hval & Hliq & Hb & Hb1 & Hb2 & HL & Hs').
    assert (s10 = s1) as -> by congruence. assert (b0 = b) as -> by congruence. clear Hacc0 Hb0.
    exists s1. split; [assumption|].
    pose proof (accrue_linv C _ _ _ Hi Hacc) as [Hi1 _].
    assert (Hmk : ln_mkts s' = ln_mkts s1) by (rewrite Hs'; reflexivity).
    assert (Hpr : ln_price s' = ln_price s1) by (rewrite Hs'; reflexivity).
    assert (Hfr : ln_free s' = ln_free s1) by (rewrite Hs'; reflexivity).
    assert (Hdp : forall c, dep_of s' c w = dep_of s1 c w) by (intros c; rewrite Hs'; reflexivity).
    assert (Hsu : forall c, supply_of s' c = supply_of s1 c).
    { intros c. rewrite Hs'. unfold supply_of. change (acc_of (st_led ?y L) c) with (acc_of y c). rewrite acc_of_put. destruct (decide _) as [->|]; reflexivity. }
    pose proof (transfer_spec _ _ _ _ _ _ _ _ HL) as (HB & _ & _).
    assert (Hba : forall c, backing C s' c = backing C s1 c).
    { intros c. unfold backing. rewrite Hs'. unfold borrows_of, reserves_of. change (acc_of (st_led ?y L) c) with (acc_of y c). rewrite !acc_of_put.
      cbn [ln_led st_led]. rewrite HB. unfold at_. destruct (decide (c = a)) as [->|Ne].
      - rewrite (bool_decide_true (a = a /\ ln_acct C = ln_acct C)) by auto. rewrite bool_decide_false by intuition congruence.
        cbn [m_borrows m_res set_borrows]. fold (borrows_of s1 a). lia.
      - rewrite !bool_decide_false by intuition congruence. change (acc_of (put_debt _ _ _ _) c) with (acc_of s1 c). lia. }
    assert (Hcf : forall c mk1, counts_for C mk_cf s' w c mk1 = counts_for C mk_cf s1 w c mk1) by (intros; apply counts_for_eq; auto).
    split; [apply over_active_ext; auto|].
    split. { apply over_active_ext; auto. intros c mk1 _. rewrite (lf_only_frame s1 s') by auto. unfold lf_only. rewrite Hcf. reflexivity. }
    assert (Hd' : debt_now s' a w = debt_now s1 a w + amt).
    { apply debt_now_eq in Hb'. apply debt_now_eq in Hb. lia. }
    pose proof (asset_value_ok _ _ _ _ Hval) as (p & _ & _ & Hv0).
    apply asset_value_of in Hval. rewrite <- Hval.
    split.
    { unfold borrow_worth. rewrite (over_active_update s1 s' (fun c _ => value_of s1 c (debt_now s1 c w)) _ a); auto.
      - rewrite <- Hmk, Hmk. destruct (ln_mkts s1 !! a) as [mk1|]; [|lia]. destruct (bool_decide _); [|lia].
        rewrite (value_of_eq s1 s') by auto. rewrite Hd'. pose proof (value_add s1 a (debt_now s1 a w) amt). lia.
      - intros c mk1 _ Hne. rewrite (value_of_eq s1 s') by auto. rewrite (debt_now_frame s1 s'); auto.
        rewrite Hdf by congruence. symmetry. eapply accrue_debts; eauto. }
    split.
    { intros He. unfold lf_debt_worth. rewrite (value_of_eq s1 s') by auto. rewrite <- He. rewrite Hd'. pose proof (value_add s1 a (debt_now s1 a w) amt). lia. }
    split; [lia|]. apply ensure_liquidity_worth in Hliq as [L1 L2]. split.
    - intros Hne. apply L1. lia.
    - intros He. apply L2. lia.
  Qed.

  (** *** redeem *)
  Lemma rate_now_mono s s' a : rok C s s' -> 0 <= backing C s a -> 0 < supply_of s a -> 0 < supply_of s' a -> rate_now C s a <= rate_now C s' a.
  Proof.
    intros H Hb H1 H2. destruct (H a Hb) as (_ & H3 & _). unfold rate_now.
    replace (supply_of s a =? 0) with false by lia. replace (supply_of s' a =? 0) with false by lia. auto.
  Qed.
  Lemma redeem_worths s w a v x s' : linv s -> 0 <= backing C s a -> w <> ln_acct C -> 0 <= v -> redeem_eff C P s w a v x s' ->
    borrow_worth s' w = borrow_worth s w /\ lf_debt_worth C s' w = lf_debt_worth C s w /\
    (is_collateral s a w = false -> collateral_worth C s' w = collateral_worth C s w /\ lf_collateral_worth C s' w = lf_collateral_worth C s w) /\
    (is_collateral s a w = true ->
       exists val, 0 <= val /\
         collateral_worth C s w <= collateral_worth C s' w + val + price_of s a / FDIV + 2 /\
         lf_collateral_worth C s w <= lf_collateral_worth C s' w + val + price_of s a / FDIV + 2 /\
         (a ∉ ln_free s -> lf_collateral_worth C s' w = lf_collateral_worth C s w) /\
         (a ∉ ln_free s -> Z.max 0 (lf_collateral_worth C s w - lf_debt_worth C s w) + val <= Z.max 0 (collateral_worth C s w - borrow_worth s w)) /\
         (a ∈ ln_free s -> val <= Z.max 0 (collateral_worth C s w - borrow_worth s w) \/ val <= Z.max 0 (lf_collateral_worth C s w - lf_debt_worth C s w))).
  Proof.
    intros Hi Hback Hw Hv H. pose proof (redeem_eff_full C P s w a v x s' H Hw) as (r & Hr & Hx & Hvle & Hvs & Hss & Hcs & HM & _ & _ & Hdf & Hdebt & Hix).
    pose proof (redeem_eff_params C P s w a v x s' H) as (Hmk & Hfr & Hpr).
    pose proof (redeem_eff_rok C P s w a v x s' Hv Hi H) as Hrok.
    assert (Hcf : forall c mk, c <> a -> counts_for C mk_cf s' w c mk = counts_for C mk_cf s w c mk).
    { intros c mk Hne. apply counts_for_eq; auto; [apply Hdf; congruence| |].
      - unfold supply_of. rewrite (redeem_eff_acc C P s w a v x s' c H Hne). reflexivity.
      - unfold backing, borrows_of, reserves_of. rewrite (redeem_eff_acc C P s w a v x s' c H Hne). rewrite (HM c (ln_acct C)). unfold at_. rewrite !bool_decide_false by intuition congruence. lia. }
    split; [apply borrow_worth_eq; auto|]. split; [apply lf_debt_worth_eq; auto|].
    assert (U1 := over_active_update s s' (counts_for C mk_cf s w) (counts_for C mk_cf s' w) a Hmk (fun c mk _ Hne => Hcf c mk Hne)).
    assert (U2 := over_active_update s s' (lf_only s (counts_for C mk_cf s w)) (lf_only s' (counts_for C mk_cf s' w)) a Hmk).
    specialize (U2 ltac:(intros c mk _ Hne; rewrite (lf_only_frame s s') by auto; unfold lf_only; rewrite Hcf by auto; reflexivity)).
    fold (collateral_worth C s w) in U1. fold (collateral_worth C s' w) in U1. fold (lf_collateral_worth C s w) in U2. fold (lf_collateral_worth C s' w) in U2.
    split.
    { intros Hc. assert (Hz : forall mk, counts_for C mk_cf s' w a mk = 0 /\ counts_for C mk_cf s w a mk = 0).
      { intros mk. unfold counts_for. rewrite Hc. split; auto. destruct (is_collateral s' a w) eqn:E; auto.
        destruct (Z.eq_dec (vouchers s' a w) 0) as [Z0|Z0]; [|specialize (Hcs Z0); congruence].
        rewrite Z0, Z.mul_0_r, Z.div_0_l, p_mul_ceil_0 by (pose proof FDIV_pos; lia). apply value_0. }
      rewrite U1, U2. destruct (ln_mkts s !! a) as [mk|]; [|lia]. destruct (Hz mk) as [Z1 Z2]. unfold lf_only.
      rewrite Z1, Z2. destruct (bool_decide (mk_state mk = Active)); [|lia]. destruct (bool_decide _), (bool_decide _); lia. }
    intros Hc. destruct H as (R & E & X & Y & Z & r0 & L & _ & Hr0 & _ & Hxu & _ & _ & _ & _ & Hchk & _ & _).
    destruct (Hchk Hc) as (mk & val & Hm & Hval & Hliq). clear Hr0 Hchk.
    apply ensure_liquidity_worth in Hliq as [L1 L2].
    pose proof (asset_value_ok _ _ _ _ Hval) as (p & Hp & Hvv & Hv0). pose proof (get_price_pos s a p (proj1 Hi) Hp) as Hpp. pose proof FDIV_pos as HF.
    pose proof (get_price_of _ _ _ Hp) as Hpo.
    pose proof (li_mkt s (proj1 Hi) a mk Hm) as [(Hcfa & _) _]. pose proof (exrate_pos C s a r Hr) as Hrp. rewrite MIN_VALID_val in Hrp.
    pose proof (li_dep s (proj1 Hi) a w) as Hdw. pose proof (exrate_now C s a r Hr) as Hrn.
    assert (Hdrop : counts_for C mk_cf s w a mk <= counts_for C mk_cf s' w a mk + val + p / FDIV + 2).
    { assert (Hpn : 0 <= p / FDIV) by (apply Z.div_pos; lia). unfold counts_for. rewrite Hc. rewrite (value_of_eq s s') by auto. unfold value_of. rewrite <- Hpo, <- Hrn.
      destruct (Z.eq_dec (vouchers s' a w) 0) as [Z1|Z1].
      - rewrite Z1, Z.mul_0_r, Z.div_0_l, p_mul_ceil_0, Z.mul_0_r, Z.div_0_l by lia. assert (v = vouchers s a w) as Hveq by lia.
        rewrite Hvv, Hx, Hveq, (Z.mul_comm (vouchers s a w) r). destruct (is_collateral s' a w); lia.
      - rewrite Hcs, Hc by auto. rewrite Hvs, Hvv, Hx, (Z.mul_comm v r).
        apply (value_drop p (mk_cf mk) r (rate_now C s' a) (vouchers s a w) v (r * v / FDIV)); auto. split; [lia|]. rewrite Hrn.
        pose proof (reach_supply_ge s a w Hi) as S1. apply rate_now_mono; auto; lia. }
    exists val. split; [lia|]. assert (0 <= p / FDIV) by (apply Z.div_pos; lia). rewrite <- Hpo.
    split. { rewrite U1, Hm. destruct (bool_decide _); lia. }
    split. { rewrite U2, Hm. unfold lf_only. rewrite Hfr. destruct (bool_decide (mk_state mk = Active)), (bool_decide (a ∈ ln_free s)); lia. }
    split. { intros Hl. rewrite U2, Hm. unfold lf_only. rewrite Hfr. rewrite (bool_decide_false (a ∈ ln_free s)) by auto. destruct (bool_decide (mk_state mk = Active)); lia. }
    split.
    - intros Hl. apply L1. unfold is_lf. apply bool_decide_false. auto.
    - intros Hl. apply L2. unfold is_lf. apply bool_decide_true. auto.
  Qed.

  (** *** disabling a collateral *)
  Lemma disable_worths s w a s' : do_collateral C s w a false = Ok s' ->
    borrow_worth s' w = borrow_worth s w /\ borrow_worth s' w <= collateral_worth C s' w /\ is_collateral s' a w = false.
  Proof.
    intros H. apply do_collateral_eff in H as (mk & d & Hm & Hact & Hd & -> & Hc).
    destruct (Hc eq_refl) as (Co & cv & B & E1 & E2 & E3 & E4).
    apply total_collateral_of in E1. apply (collateral_value_of C s w a mk cv Hm) in E2. apply total_borrowed_of in E3. subst.
    assert (E0 : borrow_worth (put_dep s a w (mkDep (d_v d) false)) w = borrow_worth s w) by (apply borrow_worth_eq; auto).
    assert (Hf : is_collateral (put_dep s a w (mkDep (d_v d) false)) a w = false).
    { unfold is_collateral. rewrite dep_of_put, decide_True by auto. reflexivity. }
    split; [exact E0|]. split; [|exact Hf]. rewrite E0. unfold collateral_worth at 1.
    rewrite (over_active_update s (put_dep s a w (mkDep (d_v d) false)) (counts_for C mk_cf s w) _ a); auto.
    - rewrite Hm, bool_decide_true by auto. unfold counts_for at 2. rewrite Hf. fold (collateral_worth C s w). lia.
    - intros c mk1 _ Hne. apply counts_for_eq; auto. rewrite dep_of_put, decide_False by congruence. reflexivity.
  Qed.

  (** *** transferring vouchers *)
  Lemma drop_bound p c r V amt ex x y liq : 0 < p -> 0 < c -> c <= PMILL -> 0 <= r -> 0 < ex -> 0 <= amt -> 0 <= liq ->
    x = liq * FDIV / (f_of_permill c) -> y = x * FDIV / p -> amt <= y * FDIV / ex ->
    let D := p * p_mul_ceil c (r * V / FDIV) / FDIV - p * p_mul_ceil c (r * (V - amt) / FDIV) / FDIV in
    FDIV * (D - 1) * ex <= FDIV * r * liq + 2 * p * ex.
  Proof.
    intros Hp Hc Hc1 Hr Hex Ha Hl Hx Hy Hamt D. pose proof FDIV_pos as HF. pose proof PMILL_pos as HP. pose proof FDIV_eq as HFE.
    set (u1 := r * V / FDIV) in *. set (u2 := r * (V - amt) / FDIV) in *.
    assert (Hu : FDIV * (u1 - u2) <= r * amt + FDIV).
    { unfold u1, u2. pose proof (Z.mul_div_le (r * V) FDIV HF). pose proof (Z.mul_succ_div_gt (r * (V - amt)) FDIV HF). lia. }
    set (c1 := p_mul_ceil c u1) in *. set (c2 := p_mul_ceil c u2) in *.
    assert (Hcc : PMILL * (c1 - c2) <= c * (u1 - u2) + PMILL).
    { unfold c1, c2, p_mul_ceil. pose proof (cdiv_lt (c * u1) PMILL HP). pose proof (cdiv_ge (c * u2) PMILL HP). lia. }
    assert (HD : FDIV * D <= p * (c1 - c2) + FDIV).
    { unfold D. pose proof (Z.mul_div_le (p * c1) FDIV HF). pose proof (Z.mul_succ_div_gt (p * c2) FDIV HF). lia. }
    assert (H1 : amt * ex <= y * FDIV). { transitivity (ex * (y * FDIV / ex)); [nia|]. apply Z.mul_div_le; lia. }
    assert (H2 : p * y <= x * FDIV) by (rewrite Hy; apply Z.mul_div_le; lia).
    assert (H3 : c * x <= liq * PMILL).
    { assert (f_of_permill c * x <= liq * FDIV) as H3. { rewrite Hx. apply Z.mul_div_le. unfold f_of_permill. lia. }
      unfold f_of_permill in H3. rewrite HFE in H3. lia. }
    assert (Hx0 : 0 <= x). { rewrite Hx. apply Z.div_pos; [nia|]. unfold f_of_permill. lia. }
    assert (Hy0 : 0 <= y). { rewrite Hy. apply Z.div_pos; nia. }
    (* p c amt ex <= liq PMILL FDIV FDIV *)
    assert (H4 : p * c * (amt * ex) <= liq * PMILL * (FDIV * FDIV)).
    { transitivity (p * c * (y * FDIV)). { apply Z.mul_le_mono_nonneg_l; [nia|exact H1]. }
      transitivity (c * FDIV * (x * FDIV)). { replace (p * c * (y * FDIV)) with (c * FDIV * (p * y)) by ring. apply Z.mul_le_mono_nonneg_l; [nia|exact H2]. }
      replace (c * FDIV * (x * FDIV)) with (c * x * (FDIV * FDIV)) by ring. apply Z.mul_le_mono_nonneg_r; [nia|exact H3]. }
    assert (H5 : FDIV * PMILL * (FDIV * (D - 1)) <= FDIV * p * c * (u1 - u2) + FDIV * p * PMILL).
    { assert (FDIV * (D - 1) <= p * (c1 - c2)) as A by lia.
      assert (PMILL * (p * (c1 - c2)) <= p * (c * (u1 - u2) + PMILL)) as B.
      { replace (PMILL * (p * (c1 - c2))) with (p * (PMILL * (c1 - c2))) by ring. apply Z.mul_le_mono_nonneg_l; [lia|exact Hcc]. }
      assert (PMILL * (FDIV * (D - 1)) <= PMILL * (p * (c1 - c2))) as A' by (apply Z.mul_le_mono_nonneg_l; lia).
      replace (FDIV * PMILL * (FDIV * (D - 1))) with (FDIV * (PMILL * (FDIV * (D - 1)))) by ring.
      transitivity (FDIV * (p * (c * (u1 - u2) + PMILL))); [apply Z.mul_le_mono_nonneg_l; lia|]. apply Z.eq_le_incl. ring. }
    assert (H6 : FDIV * p * c * (u1 - u2) <= p * c * (r * amt) + FDIV * p * PMILL).
    { transitivity (p * c * (r * amt + FDIV)).
      - replace (FDIV * p * c * (u1 - u2)) with (p * c * (FDIV * (u1 - u2))) by ring. apply Z.mul_le_mono_nonneg_l; [nia|exact Hu].
      - assert (p * c * FDIV <= p * PMILL * FDIV). { apply Z.mul_le_mono_nonneg_r; [lia|]. apply Z.mul_le_mono_nonneg_l; lia. } lia. }
    assert (H7 : FDIV * PMILL * (FDIV * (D - 1)) * ex <= r * (liq * PMILL * (FDIV * FDIV)) + 2 * (FDIV * p * PMILL) * ex).
    { transitivity ((p * c * (r * amt) + 2 * (FDIV * p * PMILL)) * ex); [apply Z.mul_le_mono_nonneg_r; lia|].
      assert (r * (p * c * (amt * ex)) <= r * (liq * PMILL * (FDIV * FDIV))) by (apply Z.mul_le_mono_nonneg_l; lia). lia. }
    apply (Z.mul_le_mono_pos_l _ _ (FDIV * PMILL)); [nia|].
    transitivity (FDIV * PMILL * (FDIV * (D - 1)) * ex); [apply Z.eq_le_incl; ring|]. etransitivity; [exact H7|]. apply Z.eq_le_incl; ring.
  Qed.

  Lemma transfer_pt_worths s pt src dst amt s' : linv s -> (forall a, 0 <= backing C s a) -> 0 <= amt -> transfer_pt C s pt src dst amt = Ok s' ->
    exists u, ln_under s !! pt = Some u /\
      (forall x, borrow_worth s' x = borrow_worth s x) /\
      (src <> dst -> collateral_worth C s dst <= collateral_worth C s' dst) /\
      (is_collateral s u src = false -> collateral_worth C s' src = collateral_worth C s src) /\
      (is_collateral s u src = true ->
         let liq := Z.max 0 (collateral_worth C s src - borrow_worth s src) in
         let D := collateral_worth C s src - collateral_worth C s' src in
         D <= liq \/ (0 < m_ex (acc_of s u) /\ FDIV * (D - 1) * m_ex (acc_of s u) <= FDIV * rate_now C s u * liq + 2 * price_of s u * m_ex (acc_of s u))).
  Proof.
    intros Hi Hbk Ha H. apply transfer_pt_unfold in H as (R & E & X & Y & Z & u & red & Hu & Hred & Hle & Hv & Hs' & Hov).
    exists u. split; [assumption|].
    set (s4 := put_dep_or_remove (aux s R E X Y Z) u src (mkDep (vouchers s u src - amt) (is_collateral s u src))) in *.
    cbn zeta in Hs'.
    assert (Hmk : ln_mkts s' = ln_mkts s) by (rewrite Hs'; unfold s4, put_dep_or_remove; destruct (_ =? 0); reflexivity).
    assert (Hpr : ln_price s' = ln_price s) by (rewrite Hs'; unfold s4, put_dep_or_remove; destruct (_ =? 0); reflexivity).
    assert (Hac : forall c, acc_of s' c = acc_of s c) by (intros c; rewrite Hs'; unfold s4, put_dep_or_remove; destruct (_ =? 0); reflexivity).
    assert (Hld : ln_led s' = ln_led s) by (rewrite Hs'; unfold s4, put_dep_or_remove; destruct (_ =? 0); reflexivity).
    assert (Hde : forall c x, debt_of s' c x = debt_of s c x) by (intros c x; rewrite Hs'; unfold s4, put_dep_or_remove; destruct (_ =? 0); reflexivity).
    assert (Hsu : forall c, supply_of s' c = supply_of s c) by (intros c; unfold supply_of; rewrite Hac; reflexivity).
    assert (Hba : forall c, backing C s' c = backing C s c) by (intros c; unfold backing, borrows_of, reserves_of; rewrite Hac, Hld; reflexivity).
    assert (Hix : forall c, index_of s' c = index_of s c) by (intros c; unfold index_of; rewrite Hac; reflexivity).
    assert (Hd4 : forall c x, dep_of s4 c x = if decide ((c, x) = (u, src)) then (if vouchers s u src - amt =? 0 then dep0 else mkDep (vouchers s u src - amt) (is_collateral s u src)) else dep_of s c x).
    { intros c x. unfold s4. rewrite dep_of_put_rm. cbn [d_v]. destruct (decide _); [reflexivity|]. reflexivity. }
    assert (Hd' : forall c x, dep_of s' c x = if decide ((c, x) = (u, dst)) then mkDep (vouchers s4 u dst + amt) (is_collateral s4 u dst) else dep_of s4 c x).
    { intros c x. rewrite Hs'. rewrite dep_of_put. reflexivity. }
    assert (Hcf : forall c x mk, c <> u -> counts_for C mk_cf s' x c mk = counts_for C mk_cf s x c mk).
    { intros c x mk Hne. apply counts_for_eq; auto. rewrite Hd', decide_False by congruence. rewrite Hd4, decide_False by congruence. reflexivity. }
    assert (Hrn : rate_now C s' u = rate_now C s u) by (unfold rate_now, rate_of; rewrite Hsu, Hba; reflexivity).
    assert (Hup : forall x, collateral_worth C s' x = collateral_worth C s x +
       match ln_mkts s !! u with Some mk => if bool_decide (mk_state mk = Active) then counts_for C mk_cf s' x u mk - counts_for C mk_cf s x u mk else 0 | None => 0 end).
    { intros x. unfold collateral_worth. apply over_active_update; auto. }
    assert (Hb : forall x, borrow_worth s' x = borrow_worth s x) by (intros x; apply borrow_worth_eq; auto).
    split; [exact Hb|].
    pose proof FDIV_pos as HF. pose proof PMILL_pos as HPM.
    assert (Hrp : 0 <= rate_now C s u).
    { unfold rate_now. destruct (supply_of s u =? 0) eqn:Eq; [rewrite MIN_EXRATE_val; apply Z.leb_le; reflexivity|].
      pose proof (reach_supply_ge s u src Hi) as S1. pose proof (li_dep s (proj1 Hi) u src) as S2. unfold rate_of. apply Z.div_pos; [|lia].
      apply Z.mul_nonneg_nonneg; [apply Hbk|lia]. }
    pose proof (price_nonneg s u (proj1 Hi)) as Hp0.
    set (K := fun mk x => value_of s u (p_mul_ceil (mk_cf mk) (rate_now C s u * x / FDIV))).
    assert (HKm : forall mk x y, ln_mkts s !! u = Some mk -> x <= y -> K mk x <= K mk y).
    { intros mk x y Hm Hxy. unfold K, value_of. pose proof (li_mkt s (proj1 Hi) u mk Hm) as [((Hcfa & _) & _) _].
      apply Z.div_le_mono; [lia|]. apply Z.mul_le_mono_nonneg_l; [lia|]. apply p_mul_ceil_mono; [lia|]. apply Z.div_le_mono; [lia|].
      apply Z.mul_le_mono_nonneg_l; lia. }
    assert (HK0 : forall mk, K mk 0 = 0). { intros mk. unfold K. rewrite Z.mul_0_r, Z.div_0_l, p_mul_ceil_0 by lia. apply value_0. }
    assert (Hc0 : forall t x mk, is_collateral t u x = false -> counts_for C mk_cf t x u mk = 0) by (intros t x mk Hc; unfold counts_for; rewrite Hc; reflexivity).
    assert (HcK : forall x mk, is_collateral s u x = true -> counts_for C mk_cf s x u mk = K mk (vouchers s u x)) by (intros x mk Hc; unfold counts_for; rewrite Hc; reflexivity).
    assert (HcK' : forall x mk, is_collateral s' u x = true -> counts_for C mk_cf s' x u mk = K mk (vouchers s' u x)).
    { intros x mk Hc; unfold counts_for; rewrite Hc, Hrn. rewrite (value_of_eq s s') by auto. reflexivity. }
    split.
    { intros Hne. rewrite Hup. destruct (ln_mkts s !! u) as [mk|] eqn:Hm; [|lia]. destruct (bool_decide _); [|lia].
      assert (H4 : dep_of s4 u dst = dep_of s u dst) by (rewrite Hd4, decide_False by congruence; reflexivity).
      assert (H5 : dep_of s' u dst = mkDep (vouchers s u dst + amt) (is_collateral s u dst)).
      { rewrite Hd', decide_True by auto. unfold vouchers, is_collateral. rewrite H4. reflexivity. }
      destruct (is_collateral s u dst) eqn:Hc.
      - rewrite (HcK dst mk Hc). rewrite HcK' by (unfold is_collateral; rewrite H5; reflexivity). unfold vouchers at 1. rewrite H5. cbn [d_v].
        pose proof (HKm mk (vouchers s u dst) (vouchers s u dst + amt) eq_refl ltac:(lia)). lia.
      - rewrite !Hc0; auto; [lia|]. unfold is_collateral. rewrite H5. reflexivity. }
    assert (H4 : dep_of s4 u src = if vouchers s u src - amt =? 0 then dep0 else mkDep (vouchers s u src - amt) (is_collateral s u src)) by (rewrite Hd4, decide_True by auto; reflexivity).
    split.
    { intros Hc. rewrite Hup. destruct (ln_mkts s !! u) as [mk|] eqn:Hm; [|lia]. destruct (bool_decide _); [|lia].
      assert (is_collateral s' u src = false) as Hc'.
      { unfold is_collateral at 1. rewrite Hd'. destruct (decide _) as [Eq|_].
        - injection Eq as <-. cbn. unfold is_collateral. rewrite H4. destruct (vouchers s u src - amt =? 0); auto.
        - rewrite H4. destruct (vouchers s u src - amt =? 0); auto. }
      rewrite !Hc0 by auto. lia. }
    intros Hc. cbn zeta. set (liq := Z.max 0 (collateral_worth C s src - borrow_worth s src)).
    (* the drop is at most that of a balance V - amt *)
    assert (Hlow : forall mk, ln_mkts s !! u = Some mk -> K mk (vouchers s u src - amt) <= counts_for C mk_cf s' src u mk).
    { intros mk Hm. destruct (vouchers s u src - amt =? 0) eqn:Ez.
      - replace (vouchers s u src - amt) with 0 by lia. rewrite HK0. rewrite Hc0; [lia|].
        unfold is_collateral. rewrite Hd'. destruct (decide _) as [Eq|_].
        + injection Eq as <-. cbn. unfold is_collateral. rewrite H4. auto.
        + rewrite H4. auto.
      - assert (Hc' : is_collateral s' u src = true).
        { unfold is_collateral at 1. rewrite Hd'. destruct (decide _) as [Eq|_].
          - injection Eq as <-. cbn. unfold is_collateral. rewrite H4. cbn. auto.
          - rewrite H4. auto. }
        rewrite HcK' by auto. apply HKm; auto. unfold vouchers at 2. rewrite Hd'. destruct (decide _) as [Eq|_].
        + injection Eq as <-. cbn. unfold vouchers at 2. rewrite H4. cbn. lia.
        + rewrite H4. cbn. lia. }
    assert (HD : forall mk, ln_mkts s !! u = Some mk -> mk_state mk = Active -> collateral_worth C s src - collateral_worth C s' src <= K mk (vouchers s u src) - K mk (vouchers s u src - amt)).
    { intros mk Hm Hact. rewrite Hup, Hm, bool_decide_true by auto. rewrite HcK by auto. specialize (Hlow mk Hm). lia. }
    assert (HD0 : amt = 0 -> collateral_worth C s src - collateral_worth C s' src <= liq).
    { intros ->. rewrite Hup. destruct (ln_mkts s !! u) as [mk|] eqn:Hm; [|lia]. destruct (bool_decide _) eqn:Eb; [|lia]. apply bool_decide_eq_true in Eb.
      specialize (Hlow mk eq_refl). rewrite Z.sub_0_r in Hlow. rewrite (HcK src mk Hc). lia. }
    unfold reducible_pt in Hred. destruct (reducible_asset C s pt src) as [red0|e|] eqn:Er; [injection Hred as <-| |discriminate].
    2: { injection Hred as <-. left. apply HD0. lia. }
    unfold reducible_asset in Er. unfold underlying in Er. rewrite Hu in Er. cbn [ok_or rbind] in Er.
    fold (is_collateral s u src) in Er. rewrite Hc in Er. cbn [negb] in Er.
    bstep Er mk Em. apply ensure_active_ok in Em as [Hm Hact]. bstep Er cv Ec. bstep Er q Eq. apply account_liquidity_ok in Eq as (B & Co & lB & lC & E1 & E2 & _ & _ & ->).
    apply total_borrowed_of in E1. apply total_collateral_of in E2. subst B Co. fold liq in Er.
    apply (collateral_value_of C s src u mk cv Hm) in Ec. rewrite HcK in Ec by auto.
    specialize (HD mk Hm Hact). destruct (cv <=? liq) eqn:El.
    - left. specialize (HKm mk 0 (vouchers s u src - amt) Hm ltac:(lia)). rewrite HK0 in HKm. lia.
    - bstep Er p Ep. bstep Er x Ex. bstep Er y Ey. unfold to_voucher in Er. apply ok_or_ok in Er. ok_arith Er. destruct Er as (Hex & Hrd & Hrd0).
      ok_arith Ex. ok_arith Ey. destruct Ex as (Hcf0 & Hx & Hxb). destruct Ey as (Hpp & Hy & Hyb).
      pose proof (get_price_of _ _ _ Ep) as Hpo. pose proof (get_price_pos s u p (proj1 Hi) Ep) as Hpos.
      pose proof (li_mkt s (proj1 Hi) u mk Hm) as [((Hcfa & Hcfb) & _) _].
      destruct (Z_lt_le_dec 0 (m_ex (acc_of s u))) as [Hexp|Hexn].
      + right. split; [exact Hexp|]. rewrite <- Hpo.
        pose proof (drop_bound p (mk_cf mk) (rate_now C s u) (vouchers s u src) amt (m_ex (acc_of s u)) x y liq) as Db. cbn zeta in Db.
        unfold K, value_of in HD. rewrite <- Hpo in HD.
        assert (0 < mk_cf mk). { unfold f_of_permill in Hcf0. destruct (Z.eq_dec (mk_cf mk) 0) as [Z0|Z0]; [rewrite Z0 in Hcf0; lia|lia]. }
        specialize (Db ltac:(lia) ltac:(lia) ltac:(lia) Hrp Hexp Ha ltac:(unfold liq; lia) Hx Hy ltac:(lia)).
        etransitivity; [|exact Db]. apply Z.mul_le_mono_nonneg_r; [lia|]. apply Z.mul_le_mono_nonneg_l; [lia|]. lia.
      + left. apply HD0. assert (y * FDIV / m_ex (acc_of s u) <= 0); [|lia].
        assert (0 <= y * FDIV) by nia. rewrite <- (Z.div_opp_opp (y * FDIV)) by lia. apply Z.div_le_upper_bound; lia.
  Qed.
End solv2.
