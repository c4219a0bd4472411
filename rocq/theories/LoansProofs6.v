(** * LoansProofs6: liquidation; who can change a position. *)
From Verif Require Import Base MapSum Ledger AmmModel LoansModel LoansSpec LoansProofs LoansProofs2 LoansProofs3 LoansProofs4 LoansProofs5.

Section liq.
  Context (C : loans_cfg) (P : policy).

  Lemma liquidate_allowed_ok s w a amt mk : liquidate_allowed C s w a amt mk = Ok tt ->
    exists B T lB lT b bv rv eff,
      total_borrowed s w = Ok B /\ total_threshold C s w = Ok T /\ lf_borrowed C s w = Ok lB /\ lf_threshold C s w = Ok lT /\
      (T < B \/ (lB < lT /\ T - B < lT - lB)) /\
      borrow_balance s w a = Ok b /\ asset_value s a b = Ok bv /\ asset_value s a amt = Ok rv /\
      (a <> lf_asset C -> eff = bv) /\
      (a = lf_asset C -> exists base, lf_base C s w = Ok base /\ eff = Z.max 0 (bv - base)) /\
      rv <= p_mul_ceil (mk_close mk) eff.
  Proof.
    unfold liquidate_allowed, threshold_liquidity. intros H. bstep H q E0. bstep E0 B F1. bstep E0 T F2. bstep E0 lB F3. bstep E0 lT F4.
    injection E0 as <-. destruct (liquidity4 B T lB lT) as [[[liq short] lfl] sh2] eqn:E4.
    bstep H u1 E5. bstep H b E6. bstep H bv E7. bstep H rv E8. bstep H eff E9. apply ensure_ok in H.
    exists B, T, lB, lT, b, bv, rv, eff. do 4 (split; [assumption|]). split.
    { clear -E4 E5. unfold liquidity4 in E4. destruct (B <? T) eqn:G1, (lB <? lT) eqn:G2; injection E4 as <- <- <- <-; lia. }
    do 3 (split; [assumption|]). split; [|split].
    - intros Hne. replace (a =? lf_asset C) with false in E9 by lia. congruence.
    - intros He. replace (a =? lf_asset C) with true in E9 by lia. bstep E9 base F. injection E9 as <-. exists base. split; [assumption|].
      destruct (base <? bv) eqn:G; lia.
    - lia.
  Qed.

  Lemma liquidate_full s liq w la amt ca s' : linv s -> is_u128 amt -> liq <> ln_acct C -> liquidate C P s liq w la amt ca = Ok s' ->
    exists s1 s2 mk B T lB lT b bv rv eff k inc,
      accrue C s la = Ok s1 /\ accrue C s1 ca = Ok s2 /\ ln_mkts s !! la = Some mk /\
      w <> liq /\ ca ∉ ln_free s /\ ca < U32MAX - 10000 /\ is_collateral s ca w = true /\
      total_borrowed s2 w = Ok B /\ total_threshold C s2 w = Ok T /\ lf_borrowed C s2 w = Ok lB /\ lf_threshold C s2 w = Ok lT /\
      (T < B \/ (lB < lT /\ T - B < lT - lB)) /\
      borrow_balance s2 w la = Ok b /\ asset_value s2 la b = Ok bv /\ asset_value s2 la amt = Ok rv /\
      (la <> lf_asset C -> eff = bv) /\
      (la = lf_asset C -> exists base, lf_base C s2 w = Ok base /\ eff = Z.max 0 (bv - base)) /\
      rv <= p_mul_ceil (mk_close mk) eff /\
      amt <= b /\ borrow_balance s' w la = Ok (b - amt) /\ borrows_of s' la = borrows_of s2 la - amt /\
      moved (ln_led s) (ln_led s') la liq (ln_acct C) amt /\
      0 <= k <= vouchers s ca w /\ 0 <= inc <= k /\
      (forall x, vouchers s' ca x = vouchers s ca x - (if decide (x = w) then k else 0) + (if decide (x = liq) then k - inc else 0)
                                   + (if decide (x = inc_acct C) then inc else 0)) /\
      (exists r cp under lv q, exrate C s' ca = Ok r /\ k = under * FDIV / r /\ get_price s2 ca = Ok cp /\ under = lv * FDIV / cp /\
          lv = rv * mk_inc mk / FDIV /\ q = k * FDIV / mk_inc mk /\ inc = p_mul_floor (mk_incres mk) q) /\
      (forall c x, c <> ca -> dep_of s' c x = dep_of s c x) /\ (forall x, is_collateral s' ca x = is_collateral s ca x) /\
      (forall c x, (c, x) <> (la, w) -> debt_of s' c x = debt_of s c x) /\ (forall c, index_of s' c = index_of s2 c) /\
      supply_of s' ca = supply_of s ca.
  Proof.
    intros Hi Ha Hl H. unfold liquidate in H. bstep H u0 E0. bstep H s1 E1. bstep H s2 E2.
    pose proof (accrue_linv C _ _ _ Hi E1) as Hi1. pose proof (accrue_linv C _ _ _ Hi1 E2) as Hi2.
    apply do_liquidate_eff in H as (mk & d & r & rv & lv & cp & under & k & inc & b & R & E & X & Y & Z & L & Hm & _ & Hne & Hall & Hd & Hcol & Hr & Hrv & Hlv & Hcp & Hund & HL & Hb & Hb1 & Hb2 & s5 & Hs5 & r' & R' & E' & X' & Y' & Z' & Hr' & Hk & Hkd & (q & Hq & Hinc) & Hki & Hs' & Hv1 & Hv2).
    apply liquidate_allowed_ok in Hall as (B & T & lB & lT & b0 & bv & rv0 & eff & G1 & G2 & G3 & G4 & G5 & G6 & G7 & G8 & G9 & G10 & G11).
    assert (b0 = b) as -> by congruence. assert (rv0 = rv) as -> by congruence.
    assert (Hdep2 : forall c x, dep_of s2 c x = dep_of s c x).
    { intros c x. rewrite (accrue_deps C s1 ca s2 _ _ E2). apply (accrue_deps C s la s1 _ _ E1). }
    assert (Hdebt2 : forall c x, debt_of s2 c x = debt_of s c x).
    { intros c x. rewrite (accrue_debts C s1 ca s2 _ _ E2). apply (accrue_debts C s la s1 _ _ E1). }
    assert (Hled2 : ln_led s2 = ln_led s). { rewrite (accrue_led C s1 ca s2 E2). apply (accrue_led C s la s1 E1). }
    unfold to_voucher in Hk; apply ok_or_ok, f_checked_div_some in Hk as (Hr0 & -> & Hk).
    pose proof (exrate_pos C s5 ca r' Hr') as Hrp. rewrite MIN_VALID_val in Hrp.
    apply f_checked_div_some in Hund as (Hcp0 & -> & Hundb). apply f_checked_mul_some in Hlv as [-> Hlvb].
    apply f_checked_div_some in Hq as (Hi0 & -> & Hqb).
    set (lv := rv * mk_inc mk / FDIV) in *. set (under := lv * FDIV / cp) in *. set (k := under * FDIV / r') in *.
    set (q := k * FDIV / mk_inc mk) in *. subst inc. set (inc := p_mul_floor (mk_incres mk) q) in *.
    assert (Hmk0 : ln_mkts s !! la = Some mk).
    { destruct (accrue_mkts C _ _ _ E1) as [X1 ->]. destruct (accrue_mkts C _ _ _ E2) as [X2 ->]. exact Hm. }
    assert (Hty : market_typed mk). { apply (li_mkt s (proj1 Hi) la mk Hmk0). }
    destruct Hty as (_ & _ & _ & _ & [Hir0 Hir1] & [Hin0 _] & _).
    assert (Hinc0 : 0 <= inc). { apply Z.div_pos; [|apply PMILL_pos]. apply Z.mul_nonneg_nonneg; lia. }
    exists s1, s2, mk, B, T, lB, lT, b, bv, rv, eff, k, inc.
    do 3 (split; [assumption|]). split; [exact Hne|].
    unfold is_lf, is_aux in E0. apply andb_prop in E0 as [E0a E0b].
    split. { intros Hin. rewrite bool_decide_true in E0a by auto. discriminate. }
    split. { apply negb_true_iff in E0b. lia. }
    split. { unfold is_collateral. rewrite <- Hdep2, Hd. exact Hcol. }
    do 11 (split; [assumption|]).
    split. { unfold is_u128 in Hb1. lia. }
    pose proof (li_mkt s2 (proj1 Hi2) la mk Hm) as [_ Hf]. pose proof FDIV_pos as HF.
    set (s9 := aux s5 R' E' X' Y' Z').
    set (s10 := put_dep s9 ca w (mkDep (d_v d - k) (d_col d))).
    set (s11 := put_dep s10 ca liq (mkDep (vouchers s10 ca liq + (k - inc)) (is_collateral s10 ca liq))).
    set (s12 := put_dep s11 ca (inc_acct C) (mkDep (vouchers s11 ca (inc_acct C) + inc) (is_collateral s11 ca (inc_acct C)))).
    assert (s' = s12) as -> by exact Hs'.
    assert (Hacc5 : forall c, acc_of s12 c = acc_of s5 c) by reflexivity.
    assert (Hdebt5 : forall c x, debt_of s12 c x = debt_of s5 c x) by reflexivity.
    assert (Hix : forall c, index_of s12 c = index_of s2 c).
    { intros c. unfold index_of. rewrite Hacc5, Hs5, acc_of_put. destruct (decide _) as [->|]; reflexivity. }
    assert (Hdd : forall c x, debt_of s12 c x = if decide ((c, x) = (la, w)) then mkDebt (b - amt) (index_of s2 la) else debt_of s2 c x).
    { intros c x. rewrite Hdebt5, Hs5. change (debt_of (put_acc ?z _ _) c x) with (debt_of z c x). rewrite debt_of_put. reflexivity. }
    split. { apply balance_at_index; [rewrite Hix; lia|exact Hb1|]. rewrite Hix, Hdd. destruct (decide _); congruence. }
    split. { unfold borrows_of at 1. rewrite Hacc5, Hs5, acc_of_put. destruct (decide _); [reflexivity|congruence]. }
    split. { rewrite <- Hled2. change (ln_led s12) with (ln_led s5). rewrite Hs5. eapply transfer_moved; exact HL. }
    assert (Hdv : d_v d = vouchers s ca w). { unfold vouchers. rewrite <- Hdep2, Hd. reflexivity. }
    split; [unfold is_u128 in *; lia|]. split; [unfold is_u128 in *; lia|].
    assert (Hd9 : forall c x, dep_of s9 c x = dep_of s c x). { intros c x. rewrite <- Hdep2. unfold s9. rewrite Hs5. reflexivity. }
    split.
    { intros x. unfold s12, s11, s10. rewrite !vouchers_put. cbn [d_v].
      assert (Hv9 : forall y, vouchers s9 ca y = vouchers s ca y) by (intros y; unfold vouchers; rewrite Hd9; reflexivity).
      rewrite !Hv9, Hdv. clear -Hne.
      repeat match goal with |- context [decide (?x = ?y)] => destruct (decide (x = y)) end;
        repeat match goal with He : (_, _) = (_, _) |- _ => injection He as ? end; subst; try congruence; try lia. }
    split.
    { exists r', cp, under, lv, q. split; [|auto 10]. change (exrate C s12 ca) with (exrate C s5 ca). exact Hr'. }
    split. { intros c x Hc. unfold s12, s11, s10. rewrite !dep_of_put, Hd9. repeat (destruct (decide _); [congruence|]). reflexivity. }
    split.
    { intros x. unfold is_collateral at 1. unfold s12, s11, s10. rewrite !dep_of_put.
      assert (Hc9 : forall y, d_col (dep_of s9 ca y) = is_collateral s ca y) by (intros y; unfold is_collateral; rewrite Hd9; reflexivity).
      assert (Hcw : d_col d = is_collateral s ca w). { unfold is_collateral. rewrite <- Hdep2, Hd. reflexivity. }
      assert (Hc10 : forall y, is_collateral s10 ca y = is_collateral s ca y).
      { intros y. unfold is_collateral at 1. unfold s10. rewrite dep_of_put. destruct (decide _) as [Ee|]; [injection Ee as ->; exact Hcw|apply Hc9]. }
      assert (Hc11 : forall y, is_collateral s11 ca y = is_collateral s ca y).
      { intros y. unfold is_collateral at 1. unfold s11. rewrite dep_of_put. destruct (decide _) as [Ee|]; [injection Ee as ->; apply Hc10|apply Hc10]. }
      destruct (decide _) as [Ee|]; [injection Ee as ->; apply Hc11|].
      destruct (decide _) as [Ee|]; [injection Ee as ->; apply Hc10|].
      destruct (decide _) as [Ee|]; [injection Ee as ->; exact Hcw|]. apply Hc9. }
    split. { intros c x Hc. rewrite Hdd. destruct (decide _); [congruence|]. apply Hdebt2. }
    split; [exact Hix|].
    pose proof (accrue_full C s la s1 (proj1 Hi) E1) as (X1 & _ & (A1 & _) & N1).
    pose proof (accrue_full C s1 ca s2 (proj1 Hi1) E2) as (X2 & _ & (A2 & _) & N2).
    unfold supply_of. rewrite Hacc5, Hs5, acc_of_put. destruct (decide (ca = la)) as [->|Ne].
    - cbn. rewrite A2. exact A1.
    - change (acc_of (put_debt _ _ _ _) ca) with (acc_of s2 ca). rewrite A2. rewrite N1 by auto. reflexivity.
  Qed.
End liq.
