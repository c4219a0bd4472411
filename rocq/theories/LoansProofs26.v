(** * LoansProofs26: accounts without debts can withdraw their collateral. *)
From Verif Require Import Base MapSum Ledger AmmModel AmmProofs AmmProofs5 LoansModel LoansSpec LoansSpec2 LoansSpec3 LoansProofs LoansProofs2 LoansProofs3 LoansProofs4 LoansProofs5
  LoansProofs8 LoansProofs9 LoansProofs10 LoansProofs12 LoansProofs13 LoansProofs14 LoansProofs15 LoansProofs16 LoansProofs17 LoansProofs18 LoansProofs19 LoansProofs20 LoansProofs21 LoansProofs22 LoansProofs23 LoansProofs24 LoansProofs25.

Section cw.
  Context (C : loans_cfg) (P : policy).

  Lemma counts_nn s w a mk : linv s -> (forall b, 0 <= backing C s b) -> ln_mkts s !! a = Some mk -> 0 <= counts_for C mk_cf s w a mk.
  Proof.
    intros Hi HB Hm. unfold counts_for. destruct (is_collateral s a w); [|lia]. destruct (li_mkt s (proj1 Hi) a mk Hm) as [([T1 T2] & _) _]. pose proof FDIV_pos. pose proof (li_dep s (proj1 Hi) a w) as [V0 _]. pose proof (voucher_le_supply s a w Hi).
    unfold value_of. apply Z.div_pos; [|lia]. apply Z.mul_nonneg_nonneg; [apply price_nonneg; apply Hi|]. apply p_mul_ceil_bounds; [split; assumption|]. apply Z.div_pos; [|lia]. apply Z.mul_nonneg_nonneg; [|exact V0].
    unfold rate_now. destruct (_ =? 0) eqn:E; [apply Z.leb_le; vm_compute; reflexivity|]. unfold rate_of. destruct (li_acc s (proj1 Hi) a) as ((S0 & _) & _). specialize (HB a). apply Z.div_pos; [nia|lia].
  Qed.
  Lemma lf_part s w a mk : linv s -> (forall b, 0 <= backing C s b) -> ln_mkts s !! a = Some mk -> mk_state mk = Active ->
    counts_for C mk_cf s w a mk <= collateral_worth C s w /\ 0 <= lf_collateral_worth C s w /\ (is_lf s a = false -> lf_collateral_worth C s w + counts_for C mk_cf s w a mk <= collateral_worth C s w).
  Proof.
    intros Hi HB Hm HA. set (g := counts_for C mk_cf s w).
    assert (G0 : forall b m, ln_mkts s !! b = Some m -> 0 <= g b m) by (intros; apply counts_nn; auto).
    set (h := fun b m => if bool_decide (mk_state m = Active) then (if bool_decide (b ∈ ln_free s) then 0 else g b m) else 0).
    assert (ES : collateral_worth C s w = lf_collateral_worth C s w + msum h (ln_mkts s)).
    { unfold collateral_worth, lf_collateral_worth, over_active. rewrite <- msum_add. apply msum_ext. intros b m _. unfold h, lf_only, g. destruct (bool_decide _); [|lia]. destruct (bool_decide (b ∈ _)); lia. }
    assert (0 <= lf_collateral_worth C s w). { unfold lf_collateral_worth, over_active. apply msum_nonneg. intros b m E. unfold lf_only. destruct (bool_decide _); [|lia]. destruct (bool_decide (b ∈ _)); [|lia]. exact (G0 b m E). }
    split; [|split; [assumption|]].
    - unfold collateral_worth, over_active. etransitivity; [|apply (msum_ge_elem _ _ a mk); [|exact Hm]].
      + cbn. rewrite bool_decide_true by exact HA. apply Z.le_refl.
      + intros b m E. cbn. destruct (bool_decide _); [exact (G0 b m E)|lia].
    - intros Hl. unfold is_lf in Hl. assert (h a mk <= msum h (ln_mkts s)) as HH.
      { apply msum_ge_elem; [|exact Hm]. intros b m E. unfold h. destruct (bool_decide (mk_state m = Active)) eqn:E1; [|exact (Z.le_refl 0)]. destruct (bool_decide (b ∈ ln_free s)) eqn:E2; [exact (Z.le_refl 0)|exact (G0 b m E)]. }
      assert (h a mk = g a mk) as Eh by (unfold h; rewrite bool_decide_true by exact HA; rewrite Hl; reflexivity). rewrite Eh in HH. rewrite ES. lia.
  Qed.

  (** the check of a withdrawal passes for an account without debts *)
  Lemma free_allowed s w a v mk : linv s -> floor_ok C s -> (forall b, 0 <= backing C s b) -> ln_mkts s !! a = Some mk -> mk_state mk = Active ->
    0 < supply_of s a -> backing C s a < supply_of s a -> bal (ln_led s) a (ln_acct C) + borrows_of s a <= U128MAX -> 0 <= v <= vouchers s a w ->
    v * rate_of C s a / FDIV + reserves_of s a <= bal (ln_led s) a (ln_acct C) ->
    quotable C s w -> collateral_worth C s w <= U128MAX -> borrow_worth s w = 0 -> lf_debt_worth C s w = 0 -> redeem_allowed C s a w v = Ok tt.
  Proof.
    intros Hi HF HB Hm HA HS HBk HM Hv Hcash HQ HC1 HB0 HL0. pose proof FDIV_pos as HFD. destruct (exrate_prog C s a Hi HF HS (conj (HB a) HBk) HM) as [Er Hr]. pose proof (li_dep s (proj1 Hi) a w) as [V0 V1]. fold (vouchers s a w) in V0, V1.
    destruct (li_acc s (proj1 Hi) a) as (_ & (B0 & _) & (R0 & _) & _). pose proof (li_led s (proj1 Hi)) as [HL _]. specialize (HL a (ln_acct C)).
    assert (0 <= v * rate_of C s a / FDIV <= v) as Hx. { split; [apply Z.div_pos; nia|]. apply Z.div_le_upper_bound; nia. }
    assert (Hu : to_underlying v (rate_of C s a) = Ok (v * rate_of C s a / FDIV)). { unfold to_underlying, f_checked_mul_int. rewrite Z.mul_comm. rewrite chk_ok by lia. reflexivity. }
    unfold redeem_allowed. cbn zeta. fold (vouchers s a w). replace (v <=? vouchers s a w) with true by lia. cbn [ensure rbind]. rewrite Er. cbn [rbind]. rewrite Hu. cbn [rbind].
    unfold enough_cash, cash. fold (reserves_of s a). unfold checked_sub at 1. fold (borrows_of s a) in B0. fold (reserves_of s a) in R0. rewrite chk_ok by lia. cbn [ok_or rbind].
    replace (v * rate_of C s a / FDIV <=? bal (ln_led s) a (ln_acct C) - reserves_of s a) with true by lia. cbn [ensure rbind]. fold (is_collateral s a w).
    destruct (is_collateral s a w) eqn:Ec; cbn [negb]; [|reflexivity].
    unfold get_market. rewrite Hm. cbn [ok_or rbind]. destruct (li_mkt s (proj1 Hi) a mk Hm) as [([T1 T2] & _) _]. pose proof HQ as HQ'. destruct HQ' as (HQ1 & _). destruct (HQ1 a mk Hm HA) as (Hp & _).
    destruct (lf_part s w a mk Hi HB Hm HA) as (L1 & L2 & L3).
    set (x := p_mul_ceil (mk_cf mk) (v * rate_of C s a / FDIV)).
    assert (X0 : 0 <= x) by (apply p_mul_ceil_bounds; [split; assumption|lia]).
    assert (XV : value_of s a x <= counts_for C mk_cf s w a mk).
    { unfold counts_for. rewrite Ec. unfold rate_now. replace (supply_of s a =? 0) with false by lia. unfold value_of. apply Z.div_le_mono; [lia|]. apply Z.mul_le_mono_nonneg_l; [lia|]. apply p_mul_ceil_mono; [exact T1|]. apply Z.div_le_mono; [lia|nia]. }
    assert (XV0 : 0 <= value_of s a x) by (unfold value_of; apply Z.div_pos; nia).
    rewrite (value_prog s a x) by lia. cbn [rbind]. destruct (liquidity_answers C s w Hi HF HB HQ HC1) as [q Hq]. unfold ensure_liquidity. rewrite Hq. cbn [rbind].
    apply account_liquidity_ok in Hq as (B & Co & lB & lC & Q1 & Q2 & Q3 & Q4 & ->). apply total_borrowed_of in Q1. apply total_collateral_of in Q2. apply lf_borrowed_of in Q3. apply lf_base_of in Q4. subst B Co lB lC. rewrite HB0, HL0.
    destruct (is_lf s a) eqn:El; cbn [andb].
    - replace (_ <=? _) with true by lia. reflexivity.
    - specialize (L3 eq_refl). unfold raw_add, checked_add. rewrite chk_ok by lia. cbn [unwrap rbind]. replace (_ <=? _) with true by lia. reflexivity.
  Qed.

  Lemma voucher_prog2 s w a v : linv s -> rinv s -> floor_ok C s -> lenient P -> FDIV <= index_of s a -> debt_now s a w <= U128MAX -> rewards_fit s a w -> redeem_allowed C s a w v = Ok tt ->
    0 < supply_of s a -> 0 <= backing C s a < supply_of s a -> bal (ln_led s) a (ln_acct C) + borrows_of s a <= U128MAX ->
    0 <= v <= vouchers s a w -> v * rate_of C s a / FDIV + reserves_of s a <= bal (ln_led s) a (ln_acct C) ->
    exists s' x, redeem_voucher C P s w a v = Ok (s', x).
  Proof.
    intros Hi R HF LP HX HD HW Hc HS HB HM Hv Hcash. destruct (exrate_prog C s a Hi HF HS HB HM) as [Er Hr]. pose proof (li_dep s (proj1 Hi) a w) as [V0 V1]. pose proof (voucher_le_supply s a w Hi) as Hvs.
    destruct (li_acc s (proj1 Hi) a) as ((S0 & S1) & (B0 & _) & (R0 & _) & _).
    assert (0 <= v * rate_of C s a / FDIV <= v) as Hx. { pose proof FDIV_pos. split; [apply Z.div_pos; nia|]. apply Z.div_le_upper_bound; nia. }
    assert (Hu : to_underlying v (rate_of C s a) = Ok (v * rate_of C s a / FDIV)). { unfold to_underlying, f_checked_mul_int. rewrite Z.mul_comm. rewrite chk_ok by lia. reflexivity. }
    unfold redeem_voucher. rewrite Hc. cbn [rbind].
    destruct (dist_s_prog s a w Hi R HX HD HW) as (s1 & s2 & E1 & E2). rewrite E1. cbn [rbind]. rewrite E2. cbn [rbind].
    assert (core_eq s s2) as Hcore by (eapply core_trans; [eapply upd_supply_index_core; eauto|eapply dist_supplier_core; eauto]). destruct Hcore as (A1 & A2 & A3 & A4 & A5 & ->).
    change (exrate C (aux s A1 A2 A3 A4 A5) a) with (exrate C s a). rewrite Er. cbn [rbind]. rewrite Hu. cbn [rbind]. change (d_v (dep_of (aux s A1 A2 A3 A4 A5) a w)) with (vouchers s a w).
    unfold checked_sub at 1. rewrite chk_ok by lia. cbn [ok_or rbind]. set (dd := mkDep _ _). set (s3 := put_dep_or_remove _ _ _ _).
    assert (acc_of s3 a = acc_of s a) as Ea by (subst s3; unfold put_dep_or_remove; destruct (_ =? 0); reflexivity). assert (ln_led s3 = ln_led s) as El by (subst s3; unfold put_dep_or_remove; destruct (_ =? 0); reflexivity).
    rewrite Ea. fold (supply_of s a). unfold checked_sub. rewrite chk_ok by lia. cbn [ok_or rbind]. change (ln_led (put_acc s3 a ?m)) with (ln_led s3). rewrite El. fold (reserves_of s a) in R0.
    destruct (transfer_prog P (ln_led s) a (ln_acct C) w (v * rate_of C s a / FDIV) false LP) as [L' ->]; [lia|lia|]. cbn. eauto.
  Qed.

  Lemma debtless s w : (forall b, debt_now s b w = 0) -> borrow_worth s w = 0 /\ lf_debt_worth C s w = 0.
  Proof.
    intros H. split; [|unfold lf_debt_worth; rewrite H; apply value_0]. unfold borrow_worth, over_active. apply msum_zero. intros b m _. rewrite H, value_0. destruct (bool_decide _); reflexivity.
  Qed.
End cw.
