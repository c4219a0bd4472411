(** * LoansProofs2: what each call of the loans pallet does to the core storage (markets, accounting, deposits, debts,
    ledger), with the reward/earned bookkeeping factored out. *)
From Verif Require Import Base MapSum Ledger AmmModel LoansModel LoansSpec LoansProofs.

Definition aux (s : loans) R E X Y Z : loans :=
  mkLoans (ln_mkts s) (ln_under s) (ln_acc s) R (ln_deps s) (ln_debts s) E X Y Z (ln_free s) (ln_price s) (ln_led s) (ln_time s) (ln_block s).
Definition core_eq (s s' : loans) : Prop := exists R E X Y Z, s' = aux s R E X Y Z.

Lemma core_refl s : core_eq s s.
Proof. exists (ln_rew s), (ln_earn s), (ln_six s), (ln_bix s), (ln_racc s). destruct s; reflexivity. Qed.
Lemma core_trans s1 s2 s3 : core_eq s1 s2 -> core_eq s2 s3 -> core_eq s1 s3.
Proof. intros (?&?&?&?&?&->) (R&E&X&Y&Z&->). exists R, E, X, Y, Z. reflexivity. Qed.
Lemma core_rew s R : core_eq s (st_rew s R).
Proof. eexists _, _, _, _, _. reflexivity. Qed.

Section eff.
  Context (C : loans_cfg) (P : policy).

  Lemma upd_supply_index_core s a s' : upd_supply_index s a = Ok s' -> core_eq s s'.
  Proof.
    unfold upd_supply_index. destruct (_ =? 0); [intros [= <-]; apply core_refl|].
    intros H. bstep H i Ei. injection H as <-. apply core_rew.
  Qed.
  Lemma upd_borrow_index_core s a s' : upd_borrow_index s a = Ok s' -> core_eq s s'.
  Proof.
    unfold upd_borrow_index. destruct (_ =? 0); [intros [= <-]; apply core_refl|].
    intros H. bstep H i Ei. injection H as <-. apply core_rew.
  Qed.
  Lemma dist_supplier_core s a w s' : dist_supplier s a w = Ok s' -> core_eq s s'.
  Proof.
    unfold dist_supplier. intros H. bstep H d E1. bstep H x E2. bstep H t E3. injection H as <-.
    eexists _, _, _, _, _. reflexivity.
  Qed.
  Lemma dist_borrower_core s a w s' : dist_borrower s a w = Ok s' -> core_eq s s'.
  Proof.
    unfold dist_borrower. intros H. bstep H d E1. bstep H b E0. bstep H sh E4. bstep H x E2. bstep H t E3. injection H as <-.
    eexists _, _, _, _, _. reflexivity.
  Qed.
  Lemma update_earned_core s w a r s' : update_earned s w a r = Ok s' -> core_eq s s'.
  Proof.
    unfold update_earned. intros H. bstep H t E. injection H as <-. eexists _, _, _, _, _. reflexivity.
  Qed.
  Lemma collect_reward_core s a w s' : collect_reward s a w = Ok s' -> core_eq s s'.
  Proof.
    unfold collect_reward. intros H. bstep H s1 E1. bstep H s2 E2. bstep H s3 E3.
    eapply core_trans; [eapply upd_supply_index_core; eauto|].
    eapply core_trans; [eapply dist_supplier_core; eauto|].
    eapply core_trans; [eapply upd_borrow_index_core; eauto|].
    eapply dist_borrower_core; eauto.
  Qed.
  Lemma collect_all_core l s w s' : collect_all s w l = Ok s' -> core_eq s s'.
  Proof.
    revert s. induction l as [|a l IH]; cbn; intros s H.
    - injection H as <-. apply core_refl.
    - bstep H s1 E1. eapply core_trans; [eapply collect_reward_core; eauto|]. auto.
  Qed.

  Lemma ensure_active_ok s a mk : ensure_active s a = Ok mk -> ln_mkts s !! a = Some mk /\ mk_state mk = Active.
  Proof.
    unfold ensure_active. destruct (ln_mkts s !! a) as [m|]; [|discriminate].
    destruct (is_active m) eqn:E; [|discriminate]. intros [= <-]. split; auto.
    unfold is_active in E. apply bool_decide_eq_true in E. auto.
  Qed.

  (** *** accrual *)
  Lemma obind_some {A B} (o : option A) (k : A -> option B) b : obind o k = Some b -> exists a, o = Some a /\ k a = Some b.
  Proof. destruct o; cbn; [eauto|discriminate]. Qed.

  Lemma calc_exrate_ok S c b r x : calc_exrate S c b r = Ok x ->
    (S = 0 /\ x = MIN_EXRATE) \/
    (S <> 0 /\ x = (c + b - r) * FDIV / S /\ 0 <= c + b - r <= U128MAX /\ MIN_VALID_EXRATE <= x < MAX_EXRATE).
  Proof.
    unfold calc_exrate. destruct (S =? 0) eqn:E0; [intros [= <-]; left; split; [lia|auto]|].
    intros H. right. bstep H n E1. apply obind_some in E1 as (t & E1 & E2). ok_arith E1. ok_arith E2.
    destruct E1 as [-> E1]. destruct E2 as [-> E2]. bstep H y E3. destruct E3 as (E3 & -> & E4).
    bstep H u E5. injection H as <-. apply andb_prop in E5. split; [lia|]. repeat split; lia.
  Qed.

  (** the effect of accrual on one accounting record *)
  Definition accr (now : Z) (m m' : macc) : Prop :=
    m_supply m' = m_supply m /\ m_borrows m <= m_borrows m' /\ m_res m <= m_res m' /\
    m_res m' - m_res m <= m_borrows m' - m_borrows m /\ m_index m <= m_index m' /\
    m_last m' = (if m_last m =? 0 then now else Z.max (m_last m) now).

  Lemma accrue_unfold s a s' : accrue C s a = Ok s' ->
    (m_last (acc_of s a) = 0 /\ s' = put_acc s a (mkMacc (ln_time s) (supply_of s a) (borrows_of s a) (reserves_of s a) (index_of s a)
        (m_ex (acc_of s a)) (m_util (acc_of s a)) (m_brate (acc_of s a)) (m_srate (acc_of s a)))) \/
    (m_last (acc_of s a) <> 0 /\ ln_time s <= m_last (acc_of s a) /\ s' = s) \/
    (m_last (acc_of s a) <> 0 /\ m_last (acc_of s a) < ln_time s /\
     exists mk util rate i d ex,
       ln_mkts s !! a = Some mk /\
       calc_util (cash C s a) (borrows_of s a) (reserves_of s a) = Ok util /\
       get_borrow_rate (mk_model mk) util = Some rate /\
       accrued_interest rate (borrows_of s a) (ln_time s - m_last (acc_of s a)) = Some i /\
       increment_index rate (index_of s a) (ln_time s - m_last (acc_of s a)) = Some d /\
       calc_exrate (supply_of s a) (cash C s a) (borrows_of s a + i) (reserves_of s a + p_mul_floor (mk_rf mk) i) = Ok ex /\
       borrows_of s a + i <= U128MAX /\ reserves_of s a + p_mul_floor (mk_rf mk) i <= U128MAX /\ index_of s a + d <= U128MAX /\
       s' = put_acc s a (mkMacc (ln_time s) (supply_of s a) (borrows_of s a + i) (reserves_of s a + p_mul_floor (mk_rf mk) i)
              (index_of s a + d) ex util rate (get_supply_rate rate util (mk_rf mk)))).
  Proof.
    unfold accrue, supply_of, borrows_of, reserves_of, index_of. destruct (m_last (acc_of s a) =? 0) eqn:E0.
    { intros [= <-]. left. split; [lia|auto]. }
    destruct (ln_time s <=? m_last (acc_of s a)) eqn:E1.
    { intros [= <-]. right; left. repeat split; lia. }
    intros H. right; right. split; [lia|]. split; [lia|].
    bstep H n E2. injection H as <-. unfold market_status in E2.
    bstep E2 mk Em. bstep E2 util Eu. bstep E2 rate Er.
    rewrite (proj2 (Z.ltb_lt (m_last (acc_of s a)) (ln_time s))) in E2 by lia.
    bstep E2 t Et. destruct t as [[b r] x]. bstep E2 ex Ex. injection E2 as <-.
    bstep Et i Ei. bstep Et b' Eb. destruct Eb as [-> Eb]. bstep Et r' Erv. destruct Erv as [-> Erv]. bstep Et x' Exx.
    injection Et as <- <- <-. apply obind_some in Exx as (d & Ed & Exx). ok_arith Exx. destruct Exx as [-> Exx].
    unfold get_market in Em. apply ok_or_ok in Em.
    rewrite (Z.add_comm i), (Z.add_comm (p_mul_floor _ _)) in Ex. rewrite (Z.add_comm i), (Z.add_comm (p_mul_floor _ _)), (Z.add_comm d).
    exists mk, util, rate, i, d, ex. cbn. do 8 (split; [first [assumption | lia]|]). split; [lia|]. reflexivity.
  Qed.

  Lemma accrued_interest_ok rate amt dt i : accrued_interest rate amt dt = Some i -> i = rate * amt / FDIV * dt / SPY /\ 0 <= rate * amt / FDIV.
  Proof.
    unfold accrued_interest. intros H. apply obind_some in H as (x & Ex & H). apply obind_some in H as (y & Ey & H).
    ok_arith Ex. ok_arith Ey. ok_arith H. destruct Ex as [-> ?], Ey as [-> ?], H as [-> ?]. split; auto; lia.
  Qed.
  Lemma increment_index_ok rate ix dt d : increment_index rate ix dt = Some d -> d = rate * ix / FDIV * dt / SPY.
  Proof.
    unfold increment_index. intros H. apply obind_some in H as (x & Ex & H). apply obind_some in H as (y & Ey & H).
    ok_arith Ex. ok_arith Ey. ok_arith H. destruct Ex as [-> ?], Ey as [-> ?], H as (? & -> & ?).
    rewrite Z.mul_assoc, Z.div_mul by (pose proof FDIV_pos; lia).
    pose proof FDIV_pos. pose proof SPY_val. rewrite Z.div_mul_cancel_r by lia. reflexivity.
  Qed.
  Lemma get_borrow_rate_nonneg m u r : get_borrow_rate m u = Some r -> 0 <= r.
  Proof.
    unfold get_borrow_rate. destruct m as [b j f ju|b].
    - destruct (u <=? ju); intros H; apply obind_some in H as (d & _ & H); apply obind_some in H as (q & _ & H);
        ok_arith H; lia.
    - intros H. ok_arith H. lia.
  Qed.

  (** accrual changes one accounting record, in the way described by [accr] *)
  Lemma accrue_spec s a s' : accrue C s a = Ok s' ->
    (forall mk, ln_mkts s !! a = Some mk -> is_permill (mk_rf mk)) -> 0 <= index_of s a -> 0 <= borrows_of s a ->
    exists X, s' = st_acc s X /\ accr (ln_time s) (acc_of s a) (acc_of s' a) /\ (forall b, b <> a -> acc_of s' b = acc_of s b).
  Proof.
    intros H Hrf Hix Hbo. apply accrue_unfold in H as [[H0 ->]|[(H0 & H1 & ->)|(H0 & H1 & H)]].
    - eexists. split; [reflexivity|]. split.
      + unfold acc_of at 2, put_acc, st_acc; cbn. rewrite lookup_insert; cbn. unfold accr; cbn.
        rewrite H0. cbn. unfold supply_of, borrows_of, reserves_of, index_of. repeat split; lia.
      + intros b Hb. unfold acc_of, put_acc; cbn. rewrite lookup_insert_ne; auto.
    - exists (ln_acc s). split; [destruct s; reflexivity|]. split; [|auto].
      unfold accr. replace (m_last (acc_of s a) =? 0) with false by lia. repeat split; lia.
    - destruct H as (mk & util & rate & i & d & ex & Hm & _ & Hr & Hi & Hd & _ & _ & _ & _ & ->).
      apply get_borrow_rate_nonneg in Hr. apply accrued_interest_ok in Hi as [-> Hi0]. apply increment_index_ok in Hd as ->.
      specialize (Hrf mk Hm). destruct Hrf as [Hrf1 Hrf2].
      set (i := rate * borrows_of s a / FDIV * (ln_time s - m_last (acc_of s a)) / SPY).
      assert (Hi : 0 <= i). { subst i. apply Z.div_pos; [nia|rewrite SPY_val; lia]. }
      assert (Hd : 0 <= rate * index_of s a / FDIV * (ln_time s - m_last (acc_of s a)) / SPY).
      { apply Z.div_pos; [|rewrite SPY_val; lia]. apply Z.mul_nonneg_nonneg; [|lia]. apply Z.div_pos; [nia|apply FDIV_pos]. }
      assert (Hp : 0 <= p_mul_floor (mk_rf mk) i <= i).
      { unfold p_mul_floor. pose proof PMILL_pos. split; [apply Z.div_pos; nia|apply Z.div_le_upper_bound; nia]. }
      eexists. split; [reflexivity|]. split.
      + unfold acc_of at 2, put_acc, st_acc; cbn. rewrite lookup_insert; cbn. unfold accr; cbn.
        replace (m_last (acc_of s a) =? 0) with false by lia.
        unfold supply_of, borrows_of, reserves_of, index_of in *. repeat split; lia.
      + intros b Hb. unfold acc_of, put_acc; cbn. rewrite lookup_insert_ne; auto.
  Qed.

  (** *** effects of the calls *)
  Ltac core H := first
    [ apply upd_supply_index_core in H | apply upd_borrow_index_core in H | apply dist_supplier_core in H
    | apply dist_borrower_core in H | apply update_earned_core in H ].
  Ltac coreeq E1 E2 := let E := fresh "Core" in pose proof (core_trans _ _ _ E1 E2) as E.

  Definition mint_eff (s : loans) (w : account) (a : asset) (amt : Z) (s' : loans) : Prop :=
    amt <> 0 /\
    exists mk s1 R E X Y Z r v L,
      ln_mkts s !! a = Some mk /\ mk_state mk = Active /\ bal (ln_led s) a (ln_acct C) + amt <= mk_scap mk /\
      accrue C s a = Ok s1 /\ exrate C s1 a = Ok r /\
      v = amt * FDIV / r /\ r <> 0 /\ 0 < v <= U128MAX /\
      transfer P (ln_led s1) a w (ln_acct C) amt false = Ok L /\
      vouchers s1 a w + v <= U128MAX /\ supply_of s1 a + v <= U128MAX /\
      s' = put_acc (put_dep (st_led (aux s1 R E X Y Z) L) a w (mkDep (vouchers s1 a w + v) (is_collateral s1 a w)))
                   a (set_supply (acc_of s1 a) (supply_of s1 a + v)).
  Lemma do_mint_eff s w a amt s' : do_mint C P s w a amt = Ok s' -> mint_eff s w a amt s'.
  Proof.
    unfold do_mint. intros H. bstep H u0 E0. bstep H mk E1. apply ensure_active_ok in E1 as [E1 E1'].
    bstep H u1 E2. unfold under_supply_cap, get_market in E2. rewrite E1 in E2; cbn in E2.
    bstep E2 tt0 E2a. destruct E2a as [-> E2a]. apply ensure_ok in E2.
    bstep H s1 E3. bstep H s2 E4. bstep H s3 E5. bstep H r E6. bstep H s4 E7. bstep H v E8. bstep H u2 E9.
    bstep H L E10. bstep H v' E11. bstep H t E12. injection H as <-.
    core E4. core E5. core E7. pose proof (core_trans _ _ _ E4 E5) as E45.
    destruct E45 as (R0 & E0' & X0 & Y0 & Z0 & ->). destruct E7 as (R & E & X & Y & Z & ->).
    apply ok_or_ok in E8. ok_arith E8. destruct E8 as (E8 & -> & E8').
    split; [lia|]. exists mk, s1, R, E, X, Y, Z, r, (amt * FDIV / r), L.
    change (exrate C (aux s1 R0 E0' X0 Y0 Z0) a) with (exrate C s1 a) in E6.
    destruct E11 as [-> E11]. destruct E12 as [-> E12].
    do 9 (split; [first [assumption | lia | reflexivity]|]). split.
    { unfold vouchers. cbn in E11. unfold dep_of in *. cbn in E11. lia. }
    split. { unfold supply_of. cbn in E12. unfold acc_of in *; cbn in E12. lia. }
    reflexivity.
  Qed.

  Definition redeem_eff (s : loans) (w : account) (a : asset) (v x : Z) (s' : loans) : Prop :=
    exists R E X Y Z r L,
      v <= vouchers s a w /\ exrate C s a = Ok r /\ x = v * r / FDIV /\ is_u128 x /\
      x <= cash C s a - reserves_of s a /\ 0 <= cash C s a - reserves_of s a /\ 0 <= vouchers s a w - v /\ 0 <= supply_of s a - v /\
      (is_collateral s a w = true ->
         exists mk val, ln_mkts s !! a = Some mk /\ asset_value s a (p_mul_ceil (mk_cf mk) x) = Ok val /\
           ensure_liquidity C s w val (is_lf s a) = Ok tt) /\
      transfer P (ln_led s) a (ln_acct C) w x false = Ok L /\
      s' = st_led (put_acc (put_dep_or_remove (aux s R E X Y Z) a w (mkDep (vouchers s a w - v) (is_collateral s a w)))
                           a (set_supply (acc_of s a) (supply_of s a - v))) L.
  Lemma redeem_voucher_eff s w a v s' x : redeem_voucher C P s w a v = Ok (s', x) -> redeem_eff s w a v x s'.
  Proof.
    unfold redeem_voucher. intros H. bstep H u0 E0. bstep H s1 E1. bstep H s2 E2. bstep H r E3. bstep H x0 E4.
    bstep H v' E5. bstep H t E6. bstep H L E7. injection H as <- <-.
    core E1. core E2. pose proof (core_trans _ _ _ E1 E2) as (R & E & X & Y & Z & ->). clear E1 E2.
    apply ok_or_ok in E4. ok_arith E4. destruct E4 as [-> E4].
    change (exrate C (aux s R E X Y Z) a) with (exrate C s a) in E3.
    unfold redeem_allowed in E0. bstep E0 u1 E0a. rewrite E3 in E0. cbn in E0. bstep E0 x1 E0b.
    apply ok_or_ok in E0b. ok_arith E0b. destruct E0b as [-> E0b]. bstep E0 u2 E0c.
    unfold enough_cash in E0c. bstep E0c c Ec. apply ensure_ok in E0c. destruct Ec as [-> Ec].
    destruct E5 as [-> E5].
    assert (Hacc : acc_of (put_dep_or_remove (aux s R E X Y Z) a w
              (mkDep (d_v (dep_of (aux s R E X Y Z) a w) - v) (d_col (dep_of (aux s R E X Y Z) a w)))) a = acc_of s a).
    { unfold put_dep_or_remove. destruct (_ =? 0); reflexivity. }
    rewrite Hacc in *. destruct E6 as [-> E6].
    exists R, E, X, Y, Z, r, L. rewrite (Z.mul_comm v r).
    split; [unfold vouchers; lia|]. split; [assumption|]. split; [reflexivity|].
    split; [unfold is_u128; lia|]. split; [unfold reserves_of; lia|]. split; [unfold reserves_of; lia|].
    split; [unfold vouchers; change (dep_of (aux s R E X Y Z) a w) with (dep_of s a w) in E5; lia|].
    split; [unfold supply_of; lia|]. split.
    { unfold is_collateral. intros Hc. rewrite Hc in E0. cbn in E0. bstep E0 mk Em. bstep E0 val Ev.
      unfold get_market in Em. apply ok_or_ok in Em. destruct u0. eauto. }
    split.
    { revert E7. unfold put_dep_or_remove. destruct (_ =? 0); cbn; auto. }
    reflexivity.
  Qed.

  Definition redeem_all_eff (s : loans) (w : account) (a : asset) (sel : loans -> Z -> Z) (s' : loans) (x : Z) : Prop :=
    exists mk s1 s2 r,
      ln_mkts s !! a = Some mk /\ mk_state mk = Active /\ accrue C s a = Ok s1 /\ exrate C s1 a = Ok r /\ core_eq s1 s2 /\
      redeem_eff s2 w a (sel s2 r) x s'.
  Lemma do_redeem_eff s w a amt s' x : do_redeem C P s w a amt = Ok (s', x) ->
    redeem_all_eff s w a (fun _ r => amt * FDIV / r) s' x.
  Proof.
    unfold do_redeem. intros H. bstep H mk E1. apply ensure_active_ok in E1 as [E1 E1'].
    bstep H s1 E2. bstep H r E3. bstep H s2 E4. bstep H v E5. apply ok_or_ok in E5. ok_arith E5. destruct E5 as (E5 & -> & E5').
    apply redeem_voucher_eff in H. core E4. exists mk, s1, s2, r. auto 10.
  Qed.
  Lemma do_redeem_all_eff s w a s' x : do_redeem_all C P s w a = Ok (s', x) ->
    redeem_all_eff s w a (fun s2 _ => vouchers s2 a w) s' x.
  Proof.
    unfold do_redeem_all. intros H. bstep H mk E1. apply ensure_active_ok in E1 as [E1 E1'].
    bstep H s1 E2. bstep H r E3. bstep H s2 E4.
    apply redeem_voucher_eff in H. core E4. exists mk, s1, s2, r. auto 10.
  Qed.

  Definition borrow_eff (s : loans) (w : account) (a : asset) (amt : Z) (s' : loans) : Prop :=
    exists mk s1 R E X Y Z b val L,
      ln_mkts s !! a = Some mk /\ mk_state mk = Active /\ accrue C s a = Ok s1 /\
      borrows_of s1 a + amt <= mk_bcap mk /\ amt <= cash C s1 a - reserves_of s1 a /\
      asset_value s1 a amt = Ok val /\ ensure_liquidity C s1 w val (a =? lf_asset C) = Ok tt /\
      borrow_balance s1 w a = Ok b /\ is_u128 (b + amt) /\ is_u128 (borrows_of s1 a + amt) /\
      transfer P (ln_led s1) a (ln_acct C) w amt false = Ok L /\
      s' = st_led (put_acc (put_debt (aux s1 R E X Y Z) a w (mkDebt (b + amt) (index_of s1 a)))
                           a (set_borrows (acc_of s1 a) (borrows_of s1 a + amt))) L.
  Lemma accrue_mkts s a s1 : accrue C s a = Ok s1 -> exists X, s1 = st_acc s X.
  Proof.
    intros H. apply accrue_unfold in H as [[_ ->]|[(_ & _ & ->)|(_ & _ & H)]].
    - eexists; reflexivity.
    - exists (ln_acc s). destruct s; reflexivity.
    - destruct H as (mk & util & rate & i & d & ex & _ & _ & _ & _ & _ & _ & _ & _ & _ & ->). eexists; reflexivity.
  Qed.
  Lemma do_borrow_eff s w a amt s' : do_borrow C P s w a amt = Ok s' -> borrow_eff s w a amt s'.
  Proof.
    unfold do_borrow. intros H. bstep H mk E1. apply ensure_active_ok in E1 as [E1 E1']. bstep H s1 E2. bstep H u0 E3.
    bstep H s2 E4. bstep H s3 E5. bstep H b E6. bstep H b' E7. bstep H t E8. bstep H L E9. injection H as <-.
    core E4. core E5. pose proof (core_trans _ _ _ E4 E5) as (R & E & X & Y & Z & ->). clear E4 E5.
    unfold borrow_allowed in E3. bstep E3 u1 E3a. bstep E3 u2 E3b. bstep E3 val E3c.
    unfold under_borrow_cap in E3a. bstep E3a mk' Em. bstep E3a t' Et. apply ensure_ok in E3a. destruct Et as [-> Et].
    destruct (accrue_mkts _ _ _ E2) as [X1 Hs1].
    assert (mk' = mk) as -> by (rewrite Hs1 in Em; unfold get_market in Em; apply ok_or_ok in Em; cbn in Em; congruence).
    unfold enough_cash in E3b. bstep E3b c Ec. apply ensure_ok in E3b. destruct Ec as [-> Ec].
    destruct E7 as [-> E7]. destruct E8 as [-> E8]. destruct u0.
    exists mk, s1, R, E, X, Y, Z, b, val, L.
    do 3 (split; [assumption|]). split; [unfold borrows_of; lia|]. split; [unfold reserves_of; lia|].
    do 3 (split; [assumption|]). split; [unfold is_u128; lia|]. split; [unfold is_u128, borrows_of; exact E8|].
    split; [assumption|]. reflexivity.
  Qed.

  Definition repay_eff (s1 : loans) (w : account) (a : asset) (amt : Z) (s' : loans) : Prop :=
    exists R E X Y Z b L,
      borrow_balance s1 w a = Ok b /\ amt <= b /\ is_u128 (b - amt) /\
      transfer P (ln_led s1) a w (ln_acct C) amt false = Ok L /\
      s' = put_acc (put_debt (st_led (aux s1 R E X Y Z) L) a w (mkDebt (b - amt) (index_of s1 a)))
                   a (set_borrows (acc_of s1 a) (Z.max 0 (borrows_of s1 a - amt))).
  Lemma repay_with_amount_eff s w a b amt s' : borrow_balance s w a = Ok b ->
    repay_with_amount C P s w a b amt = Ok s' -> repay_eff s w a amt s'.
  Proof.
    intros Hb. unfold repay_with_amount. intros H. bstep H u0 E0. bstep H s1 E1. bstep H s2 E2. bstep H L E3. bstep H b' E4.
    injection H as <-. core E1. core E2. pose proof (core_trans _ _ _ E1 E2) as (R & E & X & Y & Z & ->). clear E1 E2.
    destruct E4 as [-> E4]. exists R, E, X, Y, Z, b, L. split; [assumption|]. split; [lia|].
    split; [unfold is_u128; lia|]. split; [assumption|]. reflexivity.
  Qed.
  Lemma do_repay_eff s w a amt s' : do_repay C P s w a amt = Ok s' ->
    exists mk s1, ln_mkts s !! a = Some mk /\ mk_state mk = Active /\ accrue C s a = Ok s1 /\ repay_eff s1 w a amt s'.
  Proof.
    unfold do_repay. intros H. bstep H mk E1. apply ensure_active_ok in E1 as [E1 E1']. bstep H s1 E2. bstep H b E3.
    apply repay_with_amount_eff in H; auto. eauto 10.
  Qed.
  (** accruing twice at the same time is accruing once *)
  Lemma accrue_last s a s1 : 0 < ln_time s -> accrue C s a = Ok s1 -> ln_time s1 <= m_last (acc_of s1 a) /\ m_last (acc_of s1 a) <> 0 /\ ln_time s1 = ln_time s.
  Proof.
    intros Ht H. apply accrue_unfold in H as [[H0 ->]|[(H0 & H1 & ->)|(H0 & H1 & H)]].
    - unfold put_acc, acc_of; cbn. rewrite lookup_insert; cbn. lia.
    - lia.
    - destruct H as (mk & util & rate & i & d & ex & _ & _ & _ & _ & _ & _ & _ & _ & _ & ->).
      unfold put_acc, acc_of; cbn. rewrite lookup_insert; cbn. lia.
  Qed.
  Lemma accrue_idem s a s1 : 0 < ln_time s -> accrue C s a = Ok s1 -> accrue C s1 a = Ok s1.
  Proof.
    intros Ht H. apply accrue_last in H as (H1 & H2 & H3); auto. unfold accrue.
    replace (m_last (acc_of s1 a) =? 0) with false by lia. replace (ln_time s1 <=? _) with true by lia. reflexivity.
  Qed.

  Lemma do_collateral_eff s w a e s' : do_collateral C s w a e = Ok s' ->
    exists mk d, ln_mkts s !! a = Some mk /\ mk_state mk = Active /\ ln_deps s !! (a, w) = Some d /\
      s' = put_dep s a w (mkDep (d_v d) e) /\
      (e = false -> exists Co cv B, total_collateral C s w = Ok Co /\ collateral_value C s w a = Ok cv /\
          total_borrowed s w = Ok B /\ B + cv <= Co).
  Proof.
    unfold do_collateral. intros H. bstep H mk E1. apply ensure_active_ok in E1 as [E1 E1']. bstep H d E2.
    exists mk, d. destruct e.
    - injection H as <-. repeat split; auto. discriminate.
    - bstep H Co E3. bstep H cv E4. bstep H B E5. bstep H t E6. bstep H u E7. injection H as <-.
      destruct E6 as [-> E6]. repeat split; auto. intros _. exists Co, cv, B. repeat split; auto. lia.
  Qed.

  Definition liq_eff (s : loans) (liq w : account) (la : asset) (amt : Z) (ca : asset) (s' : loans) : Prop :=
    exists mk d r rv lv cp under k inc b R E X Y Z L,
      ln_mkts s !! la = Some mk /\ (exists mk', ln_mkts s !! ca = Some mk') /\ w <> liq /\
      liquidate_allowed C s w la amt mk = Ok tt /\
      dep_of s ca w = d /\ d_col d = true /\ exrate C s ca = Ok r /\
      asset_value s la amt = Ok rv /\ f_checked_mul rv (mk_inc mk) = Some lv /\ get_price s ca = Ok cp /\
      f_checked_div lv cp = Some under /\
      transfer P (ln_led s) la liq (ln_acct C) amt false = Ok L /\
      borrow_balance s w la = Ok b /\ is_u128 (b - amt) /\ is_u128 (borrows_of s la - amt) /\
      exists s5, s5 = put_acc (put_debt (st_led (aux s R E X Y Z) L) la w (mkDebt (b - amt) (index_of s la)))
                   la (set_borrows (acc_of s la) (borrows_of s la - amt)) /\
      exists r' R' E' X' Y' Z', exrate C s5 ca = Ok r' /\ to_voucher under r' = Ok k /\ k <= d_v d /\
      (exists q, f_checked_div k (mk_inc mk) = Some q /\ inc = p_mul_floor (mk_incres mk) q) /\ is_u128 (k - inc) /\
      s' = (let s9 := aux s5 R' E' X' Y' Z' in
            let s10 := put_dep s9 ca w (mkDep (d_v d - k) (d_col d)) in
            let s11 := put_dep s10 ca liq (mkDep (vouchers s10 ca liq + (k - inc)) (is_collateral s10 ca liq)) in
            put_dep s11 ca (inc_acct C) (mkDep (vouchers s11 ca (inc_acct C) + inc) (is_collateral s11 ca (inc_acct C)))) /\
      is_u128 (vouchers (put_dep (aux s5 R' E' X' Y' Z') ca w (mkDep (d_v d - k) (d_col d))) ca liq + (k - inc)) /\
      is_u128 (vouchers (put_dep (put_dep (aux s5 R' E' X' Y' Z') ca w (mkDep (d_v d - k) (d_col d))) ca liq
          (mkDep (vouchers (put_dep (aux s5 R' E' X' Y' Z') ca w (mkDep (d_v d - k) (d_col d))) ca liq + (k - inc))
                 (is_collateral (put_dep (aux s5 R' E' X' Y' Z') ca w (mkDep (d_v d - k) (d_col d))) ca liq))) ca (inc_acct C) + inc).
  Lemma do_liquidate_eff s liq w la amt ca s' : do_liquidate C P s liq w la amt ca = Ok s' -> liq_eff s liq w la amt ca s'.
  Proof.
    unfold do_liquidate. intros H. bstep H m1 E1. bstep H m2 E2. apply ensure_active_ok in E1 as [E1 _], E2 as [E2 _].
    bstep H mk E3. unfold get_market in E3. apply ok_or_ok in E3. bstep H u0 E4. bstep H u1 E5. destruct u1. bstep H u2 E6. bstep H r E7.
    bstep H x E8. bstep H cv E9. bstep H rv E10.
    apply rbind_ok in H; destruct H as [lv [E11 H]]; cbv beta iota in H; apply ok_or_ok in E11.
    bstep H u3 E12. bstep H cp E13.
    apply rbind_ok in H; destruct H as [under [E14 H]]; cbv beta iota in H; apply ok_or_ok in E14.
    unfold liquidated_transfer in H. bstep H s1 F1. bstep H s2 F2. bstep H L F3. bstep H b F4. bstep H b' F5. bstep H t F6.
    bstep H s6 F7. bstep H s7 F8. bstep H s8 F9. bstep H s9 F10. bstep H r' F11. bstep H k F12. bstep H vw F13.
    apply rbind_ok in H; destruct H as [q [F14 H]]; cbv beta iota in H; apply ok_or_ok in F14.
    bstep H sh F15. bstep H vl F16. bstep H vi F17. injection H as <-.
    core F1. core F2. pose proof (core_trans _ _ _ F1 F2) as (R & E & X & Y & Z & ->). clear F1 F2.
    destruct F5 as [-> F5], F6 as [-> F6].
    core F7. core F8. core F9. core F10.
    pose proof (core_trans _ _ _ (core_trans _ _ _ (core_trans _ _ _ F7 F8) F9) F10) as (R' & E' & X' & Y' & Z' & ->).
    clear F7 F8 F9 F10.
    change (exrate C (aux ?z R' E' X' Y' Z') ca) with (exrate C z ca) in F11.
    destruct F13 as [-> F13], F15 as [-> F15], F16 as [-> F16], F17 as [-> F17].
    exists mk, (dep_of s ca w), r, rv, lv, cp, under, k, (p_mul_floor (mk_incres mk) q), b, R, E, X, Y, Z, L.
    split; [exact E3|]. split; [exists m2; exact E2|]. split; [lia|]. do 10 (split; [first [assumption|reflexivity]|]).
    split; [exact F5|]. split; [exact F6|].
    eexists. split; [reflexivity|]. exists r', R', E', X', Y', Z'. split; [exact F11|]. split; [exact F12|].
    split. { change (0 <= d_v (dep_of s ca w) - k <= U128MAX) in F13. lia. }
    split. { exists q. auto. }
    split; [exact F15|]. split; [reflexivity|]. split; [exact F16|exact F17].
  Qed.

  Definition transfer_pt_eff (s : loans) (pt : asset) (src dst : account) (amt : Z) (s' : loans) : Prop :=
    exists R E X Y Z u red, ln_under s !! pt = Some u /\ reducible_pt C s pt src = Ok red /\ amt <= red /\
      0 <= vouchers s u src - amt /\
      s' = (let s4 := put_dep_or_remove (aux s R E X Y Z) u src (mkDep (vouchers s u src - amt) (is_collateral s u src)) in
            put_dep s4 u dst (mkDep (vouchers s4 u dst + amt) (is_collateral s4 u dst))) /\
      is_u128 (vouchers (put_dep_or_remove (aux s R E X Y Z) u src (mkDep (vouchers s u src - amt) (is_collateral s u src))) u dst + amt).
  Lemma transfer_pt_unfold s pt src dst amt s' : transfer_pt C s pt src dst amt = Ok s' -> transfer_pt_eff s pt src dst amt s'.
  Proof.
    unfold transfer_pt. intros H. bstep H red E0. bstep H u0 E1. bstep H s1 E2. bstep H s2 E3. bstep H s3 E4. bstep H u E5.
    bstep H v E6. bstep H v' E7. injection H as <-. core E2. core E3. core E4.
    pose proof (core_trans _ _ _ (core_trans _ _ _ E2 E3) E4) as (R & E & X & Y & Z & ->). clear E2 E3 E4.
    unfold underlying in E5. apply ok_or_ok in E5. destruct E6 as [-> E6], E7 as [-> E7].
    exists R, E, X, Y, Z, u, red. split; [exact E5|]. split; [assumption|]. split; [lia|].
    split; [change (0 <= d_v (dep_of s u src) - amt <= U128MAX) in E6; unfold vouchers; lia|]. split; [reflexivity|exact E7].
  Qed.
End eff.
