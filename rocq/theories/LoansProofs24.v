(** * LoansProofs24: progress of supplying and borrowing. *)
From Verif Require Import Base MapSum Ledger AmmModel AmmProofs5 LoansModel LoansSpec LoansSpec2 LoansProofs LoansProofs2 LoansProofs3 LoansProofs4 LoansProofs5
  LoansProofs8 LoansProofs9 LoansProofs10 LoansProofs12 LoansProofs13 LoansProofs14 LoansProofs15 LoansProofs16 LoansProofs17 LoansProofs18 LoansProofs19 LoansProofs20 LoansProofs21 LoansProofs22 LoansProofs23.

Section mb.
  Context (C : loans_cfg) (P : policy).

  Lemma mint_prog s s1 w a amt mk r :
    linv s -> rinv s -> lenient P -> ln_mkts s !! a = Some mk -> mk_state mk = Active -> accrue C s a = Ok s1 ->
    0 < amt <= bal (ln_led s) a w -> bal (ln_led s) a (ln_acct C) + amt <= mk_scap mk -> mk_scap mk <= U128MAX ->
    debt_now s1 a w <= U128MAX -> rewards_fit s1 a w -> exrate C s1 a = Ok r -> 0 < r <= U128MAX -> earnings_fit s1 a w r ->
    0 < amt * FDIV / r -> supply_of s1 a + amt * FDIV / r <= U128MAX ->
    exists s', do_mint C P s w a amt = Ok s'.
  Proof.
    intros Hi R LP Hm HA E Ha Hcap HU HD HF Er Hr HE Hv HS. pose proof (accrue_linv C _ _ _ Hi E) as Hi1. pose proof (accrue_rinv C _ _ _ Hi R E) as R1.
    pose proof (accrue_mk C s a s1 a mk Hm E) as Hm1. destruct (li_mkt s1 (proj1 Hi1) a mk Hm1) as [_ HX].
    assert (EL : ln_led s1 = ln_led s) by (apply accrue_mkts in E as [X ->]; reflexivity).
    pose proof (li_led s (proj1 Hi)) as [HW _]. specialize (HW a (ln_acct C)).
    unfold do_mint. replace (amt =? 0) with false by lia. cbn [negb ensure rbind]. rewrite (active_prog s a mk Hm HA). cbn [rbind].
    unfold under_supply_cap, get_market. rewrite Hm. cbn [ok_or rbind]. unfold checked_add at 1. rewrite chk_ok by lia. cbn [ok_or rbind]. replace (_ <=? mk_scap mk) with true by lia. cbn [ensure rbind].
    rewrite E. cbn [rbind]. destruct (dist_s_prog s1 a w Hi1 R1 HX HD HF) as (s2 & s3 & E2 & E3). rewrite E2. cbn [rbind]. rewrite E3. cbn [rbind].
    assert (G : exists X Y Z, s3 = st_racc (st_six (st_rew s1 X) Y) Z).
    { pose proof (upd_s_now0 s1 a s2 R1 E2) as (_ & _ & _ & _ & _ & _ & _ & (X & ->)). unfold dist_supplier in E3. cbn zeta in E3. bstep E3 d D1. bstep E3 x D2. bstep E3 q D3. injection E3 as <-. eauto. }
    destruct G as (X & Y & Q & G). assert (exrate C s3 a = Ok r) as -> by (rewrite G; exact Er). cbn [rbind].
    assert (Ee : exists s4, update_earned s1 w a r = Ok s4) by (apply earned_prog; auto; lia). destruct Ee as [s4' Ee].
    assert (exists M, update_earned s3 w a r = Ok (st_earn s3 M)) as [M ->].
    { unfold update_earned in *. cbn zeta in *. rewrite G. change (dep_of (st_racc (st_six (st_rew s1 X) Y) Q) a w) with (dep_of s1 a w). change (earn_of (st_racc (st_six (st_rew s1 X) Y) Q) a w) with (earn_of s1 a w).
      match type of Ee with (let* t := ?z in _) = _ => destruct z eqn:Et; cbn [rbind] in Ee; try discriminate Ee end. cbn [rbind]. eauto. }
    cbn [rbind]. unfold to_voucher, f_checked_div. replace (r =? 0) with false by lia. pose proof (li_acc s1 (proj1 Hi1) a) as ((S0 & S1) & _). fold (supply_of s1 a) in S0, S1.
    rewrite chk_ok by lia. cbn [ok_or rbind]. replace (amt * FDIV / r =? 0) with false by lia. cbn [negb ensure rbind].
    change (ln_led (st_earn s3 M)) with (ln_led s3). assert (ln_led s3 = ln_led s) as -> by (rewrite G; exact EL).
    destruct (transfer_prog P (ln_led s) a w (ln_acct C) amt false LP) as [L ->]; [lia|lia|]. cbn [rbind].
    pose proof (voucher_le_supply s1 a w Hi1) as VL. pose proof (li_dep s1 (proj1 Hi1) a w) as [V0 _]. fold (vouchers s1 a w) in V0.
    assert (d_v (dep_of (st_led (st_earn s3 M) L) a w) = vouchers s1 a w) as -> by (rewrite G; reflexivity). unfold checked_add at 1. rewrite chk_ok by lia. cbn [ok_or rbind].
    match goal with |- context [m_supply (acc_of ?t a)] => assert (m_supply (acc_of t a) = supply_of s1 a) as -> by (rewrite G; reflexivity) end.
    unfold checked_add. rewrite chk_ok by lia. cbn [ok_or rbind]. eauto.
  Qed.

  Lemma borrow_worth_nn s w : linv s -> 0 <= borrow_worth s w.
  Proof.
    intros Hi. unfold borrow_worth, over_active. apply msum_nonneg. intros a mk _. destruct (bool_decide _); [|lia]. unfold value_of. pose proof FDIV_pos. apply Z.div_pos; [|lia]. apply Z.mul_nonneg_nonneg; [apply price_nonneg; apply Hi|].
    unfold debt_now. cbn zeta. destruct (_ =? 0) eqn:Eb; [lia|]. destruct (li_debt s (proj1 Hi) a w) as ((Q0 & Q1) & (I0 & I1) & I2). destruct (li_acc s (proj1 Hi) a) as (_ & _ & _ & (HI & _)). apply Z.div_pos; [|lia]. apply Z.mul_nonneg_nonneg; [apply Z.div_pos; nia|lia].
  Qed.
  Lemma stuck_unsuppliable s a : cfg_ok C -> loans_reachable C P s -> stuck C s a ->
    forall s' w amt s'', w <> ln_acct C -> 0 <= amt <= U128MAX -> loans_steps C P s s' -> loans_exec C P s' (LMint w a amt) <> Ok s''.
  Proof.
    intros HC R HS s' w amt s'' Nw Ha Hs Hx. destruct (steps_stuck C P s s' a HC (reachable_linv C P s R) HS Hs) as (I & _ & Q2).
    refine (proj1 (exec_stuck C P s' (LMint w a amt) s'' a HC _ I Q2 Hx) _); [split; [exact Ha|exact Nw]|left; reflexivity].
  Qed.
  Lemma unpriced_noborrow s b mk w a : loans_reachable C P s -> ln_mkts s !! b = Some mk -> mk_state mk = Active -> ln_price s !! b = None ->
    forall amt s', loans_exec C P s (LBorrow w a amt) <> Ok s'.
  Proof.
    intros R Hm HA HP amt s' Hx. destruct (exec_unpriced C P s (LBorrow w a amt) s' b mk w (reachable_linv C P s R) Hm HA HP Hx) as (?&?&?&?&Q); [reflexivity|discriminate Q].
  Qed.

  Lemma borrow_prog s s1 w a amt mk q :
    linv s -> rinv s -> lenient P -> ln_mkts s !! a = Some mk -> mk_state mk = Active -> accrue C s a = Ok s1 ->
    0 <= amt -> amt + reserves_of s1 a <= bal (ln_led s) a (ln_acct C) <= U128MAX -> borrows_of s1 a + amt <= mk_bcap mk -> mk_bcap mk <= U128MAX ->
    debt_now s1 a w + amt <= U128MAX -> rewards_fit s1 a w -> 0 < price_of s a -> account_liquidity C s1 w = Ok q -> collateral_worth C s1 w <= U128MAX -> value_of s a amt <= U128MAX -> 0 <= borrow_worth s1 w ->
    (a <> lf_asset C /\ value_of s a amt + borrow_worth s1 w + Z.max 0 (lf_collateral_worth C s1 w - lf_debt_worth C s1 w) <= collateral_worth C s1 w \/
     a = lf_asset C /\ (value_of s a amt + borrow_worth s1 w <= collateral_worth C s1 w \/ value_of s a amt + lf_debt_worth C s1 w <= lf_collateral_worth C s1 w)) ->
    exists s', do_borrow C P s w a amt = Ok s'.
  Proof.
    intros Hi R LP Hm HA E Ha Hcash Hcap HU HD HF Hp Hq HC1 HV B0 Hl. pose proof (accrue_linv C _ _ _ Hi E) as Hi1. pose proof (accrue_rinv C _ _ _ Hi R E) as R1.
    pose proof (accrue_mk C s a s1 a mk Hm E) as Hm1. destruct (li_mkt s1 (proj1 Hi1) a mk Hm1) as [_ HX].
    assert (EL : ln_led s1 = ln_led s /\ price_of s1 a = price_of s a /\ value_of s1 a amt = value_of s a amt) by (apply accrue_mkts in E as [X ->]; auto). destruct EL as (EL & EP & EV).
    pose proof (li_led s (proj1 Hi)) as [HW HW2]. pose proof (HW a (ln_acct C)) as HWa. pose proof (li_acc s1 (proj1 Hi1) a) as (_ & (O0 & O1) & (V0 & V1) & _). fold (borrows_of s1 a) in O0, O1. fold (reserves_of s1 a) in V0, V1.
    assert (0 <= value_of s a amt) as Hv0 by (unfold value_of; apply Z.div_pos; [nia|apply FDIV_pos]).
    unfold do_borrow. rewrite (active_prog s a mk Hm HA). cbn [rbind]. rewrite E. cbn [rbind].
    assert (borrow_allowed C s1 a w amt = Ok tt) as ->.
    { unfold borrow_allowed, under_borrow_cap, enough_cash, get_market. rewrite Hm1. cbn [ok_or rbind]. fold (borrows_of s1 a) (reserves_of s1 a). unfold checked_add. rewrite chk_ok by lia. cbn [ok_or rbind].
      replace (_ <=? mk_bcap mk) with true by lia. cbn [ensure rbind]. unfold cash. rewrite EL. unfold checked_sub. rewrite chk_ok by lia. cbn [ok_or rbind].
      replace (amt <=? _) with true by lia. cbn [ensure rbind]. rewrite (value_prog s1 a amt) by lia. cbn [rbind]. unfold ensure_liquidity. rewrite Hq. cbn [rbind].
      apply account_liquidity_ok in Hq as (B & Co & lB & lC & Q1 & Q2 & Q3 & Q4 & ->). 
      apply total_borrowed_of in Q1. apply total_collateral_of in Q2. apply lf_borrowed_of in Q3. apply lf_base_of in Q4. subst B Co lB lC. rewrite EV.
      destruct Hl as [[N Hl]|[N Hl]].
      - replace (a =? lf_asset C) with false by lia. cbn [andb]. unfold raw_add, checked_add. rewrite chk_ok by lia. cbn [unwrap rbind]. replace (_ <=? _) with true by lia. reflexivity.
      - replace (a =? lf_asset C) with true by lia. cbn [andb]. replace (_ <=? _) with true by lia. reflexivity. }
    cbn [rbind]. destruct (dist_b_prog s1 a w Hi1 R1 HX ltac:(lia) HF) as (s2 & s3 & E2 & E3). rewrite E2. cbn [rbind]. rewrite E3. cbn [rbind].
    assert (G : exists X Y Z, s3 = st_racc (st_bix (st_rew s1 X) Y) Z).
    { destruct (upd_b_now s1 a s2 Hi1 R1 ltac:(pose proof FDIV_pos; lia) E2) as (_ & _ & _ & _ & _ & _ & _ & (X & ->)). unfold dist_borrower in E3. cbn zeta in E3. bstep E3 d D1. bstep E3 b D0. bstep E3 sh D4. bstep E3 x D2. bstep E3 z D3. injection E3 as <-. eauto. }
    destruct G as (X & Y & Q & G).
    assert (borrow_balance s3 w a = Ok (debt_now s1 a w)) as ->. { rewrite G. change (borrow_balance s1 w a = Ok (debt_now s1 a w)). apply balance_prog; auto; lia. }
    assert (0 <= debt_now s1 a w) as D0. { unfold debt_now. cbn zeta. destruct (_ =? 0) eqn:Eb; [lia|]. destruct (li_debt s1 (proj1 Hi1) a w) as ((Q0 & Q1) & (I0 & I1) & I2). pose proof FDIV_pos. apply Z.div_pos; [|lia]. apply Z.mul_nonneg_nonneg; [apply Z.div_pos; nia|lia]. }
    cbn [rbind]. unfold checked_add at 1. rewrite chk_ok by lia. cbn [ok_or rbind].
    assert (m_borrows (acc_of s3 a) = borrows_of s1 a) as -> by (rewrite G; reflexivity). unfold checked_add. rewrite chk_ok by lia. cbn [ok_or rbind].
    match goal with |- context [transfer P ?l a] => assert (l = ln_led s) as -> by (rewrite G; exact EL) end.
    destruct (transfer_prog P (ln_led s) a (ln_acct C) w amt false LP) as [L ->]; [lia|lia|]. cbn [rbind]. eauto.
  Qed.
End mb.
