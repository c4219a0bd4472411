(** * LoansProofs5: exact effects of repay, borrow, mint, redeem and liquidation; who can change a position. *)
From Verif Require Import Base MapSum Ledger AmmModel LoansModel LoansSpec LoansProofs LoansProofs2 LoansProofs3 LoansProofs4.

Section fx.
  Context (C : loans_cfg) (P : policy).

  (** a debt recorded at the current index is worth its principal *)
  Lemma balance_at_index s w a p : 0 < index_of s a -> is_u128 p -> debt_of s a w = mkDebt p (index_of s a) -> borrow_balance s w a = Ok p.
  Proof.
    intros Hx Hp Hd. unfold borrow_balance. rewrite Hd. cbn [b_p b_i]. destruct (p =? 0) eqn:E0; cbn.
    - f_equal. lia.
    - replace (index_of s a =? 0) with false by lia. unfold f_checked_div. fold (index_of s a). replace (index_of s a =? 0) with false by lia.
      rewrite Z.mul_comm, Z.div_mul by lia.
      assert (chk FDIV = Some FDIV) as -> by (vm_compute; reflexivity). cbn. unfold f_checked_mul_int.
      rewrite Z.mul_comm, Z.div_mul by (pose proof FDIV_pos; lia). rewrite (proj2 (chk_some p p)) by auto. reflexivity.
  Qed.
  Lemma balance_eq s s' w a : index_of s' a = index_of s a -> debt_of s' a w = debt_of s a w -> borrow_balance s' w a = borrow_balance s w a.
  Proof. unfold borrow_balance, index_of. intros -> ->. reflexivity. Qed.
  (** a debt grows with the index *)
  Lemma accrue_debts s a s1 b w : accrue C s a = Ok s1 -> debt_of s1 b w = debt_of s b w.
  Proof. intros H. apply accrue_mkts in H as [X ->]. reflexivity. Qed.
  Lemma accrue_deps s a s1 b w : accrue C s a = Ok s1 -> dep_of s1 b w = dep_of s b w.
  Proof. intros H. apply accrue_mkts in H as [X ->]. reflexivity. Qed.
  Lemma accrue_led s a s1 : accrue C s a = Ok s1 -> ln_led s1 = ln_led s.
  Proof. intros H. apply accrue_mkts in H as [X ->]. reflexivity. Qed.
  Lemma accrue_index s a s1 b : linv0 s -> accrue C s a = Ok s1 -> index_of s b <= index_of s1 b.
  Proof.
    intros Hi H. pose proof (accrue_full C s a s1 Hi H) as (X & Hs & Ha & Hn). unfold index_of.
    destruct (decide (b = a)) as [->|E]; [|rewrite Hn by auto; lia]. destruct Ha as (_ & _ & _ & _ & A5 & _). exact A5.
  Qed.
  (** accruing a second time in the same block does not move the index *)
  Lemma accrue_twice_index s a s1 s2 : accrue C s a = Ok s1 -> accrue C s1 a = Ok s2 -> index_of s2 a = index_of s1 a.
  Proof.
    intros H1 H2. apply accrue_unfold in H2 as [[H0 ->]|[(H0 & H3 & ->)|(H0 & H3 & H)]]; auto.
    - unfold index_of. rewrite acc_of_put. destruct (decide _); [reflexivity|congruence].
    - exfalso. apply accrue_unfold in H1 as [[Z0 ->]|[(Z0 & Z1 & ->)|(Z0 & Z1 & Z2)]].
      + rewrite acc_of_put in H3. destruct (decide (a = a)); [|congruence]. cbn in H3. lia.
      + lia.
      + destruct Z2 as (mk & util & rate & i & d & ex & _ & _ & _ & _ & _ & _ & _ & _ & _ & ->).
        rewrite acc_of_put in H3. destruct (decide (a = a)); [|congruence]. cbn in H3. lia.
  Qed.

  (** *** repay *)
  Definition moved (L L' : ledger) (a : asset) (src dst : account) (amt : Z) : Prop :=
    forall c x, bal L' c x = bal L c x - at_ a src c x amt + at_ a dst c x amt.
  Lemma transfer_moved L a src dst amt ka L' : transfer P L a src dst amt ka = Ok L' -> moved L L' a src dst amt.
  Proof. intros H. apply transfer_spec in H as (H & _). exact H. Qed.

  Lemma repay_eff_full s w a amt s' : linv s -> (exists mk, ln_mkts s !! a = Some mk) -> repay_eff C P s w a amt s' ->
    exists b, borrow_balance s w a = Ok b /\ amt <= b /\ borrow_balance s' w a = Ok (b - amt) /\
      moved (ln_led s) (ln_led s') a w (ln_acct C) amt /\
      borrows_of s' a = Z.max 0 (borrows_of s a - amt) /\
      (forall c v, (c, v) <> (a, w) -> debt_of s' c v = debt_of s c v) /\ (forall c, index_of s' c = index_of s c) /\
      (forall c v, dep_of s' c v = dep_of s c v).
  Proof.
    intros [Hi _] [mk Hm] (R & E & X & Y & Z & b & L & Hb & Hle & Hb1 & HL & ->).
    exists b. split; [exact Hb|]. split; [exact Hle|]. pose proof (li_mkt s Hi a mk Hm) as [_ Hf]. pose proof FDIV_pos.
    assert (Hix : forall c, index_of (put_acc (put_debt (st_led (aux s R E X Y Z) L) a w (mkDebt (b - amt) (index_of s a)))
               a (set_borrows (acc_of s a) (Z.max 0 (borrows_of s a - amt)))) c = index_of s c).
    { intros c. unfold index_of. rewrite acc_of_put. destruct (decide _) as [->|]; reflexivity. }
    split.
    { apply balance_at_index; [rewrite Hix; lia|exact Hb1|]. rewrite Hix.
      change (debt_of (put_acc ?x _ _) a w) with (debt_of x a w). rewrite debt_of_put. destruct (decide _); [reflexivity|congruence]. }
    split; [eapply transfer_moved; exact HL|].
    split. { unfold borrows_of. rewrite acc_of_put. destruct (decide _); [reflexivity|congruence]. }
    split. { intros c v Hne. change (debt_of (put_acc ?x _ _) c v) with (debt_of x c v). rewrite debt_of_put. destruct (decide _); [congruence|reflexivity]. }
    split; [exact Hix|]. reflexivity.
  Qed.
  Lemma repay_full s w a amt s' : linv s -> do_repay C P s w a amt = Ok s' ->
    exists s1 b, accrue C s a = Ok s1 /\ borrow_balance s1 w a = Ok b /\ amt <= b /\ borrow_balance s' w a = Ok (b - amt) /\
      moved (ln_led s) (ln_led s') a w (ln_acct C) amt /\
      borrows_of s' a = Z.max 0 (borrows_of s1 a - amt) /\
      (forall c v, (c, v) <> (a, w) -> debt_of s' c v = debt_of s c v) /\ (forall c, index_of s' c = index_of s1 c) /\
      (forall c v, dep_of s' c v = dep_of s c v).
  Proof.
    intros Hi H. apply do_repay_eff in H as (mk & s1 & Hm & _ & Hacc & H).
    pose proof (accrue_linv C _ _ _ Hi Hacc) as Hi1.
    apply repay_eff_full in H as (b & H1 & H2 & H3 & H4 & H5 & H6 & H7 & H8); auto; [|exists mk; eapply accrue_keeps_mkts; eauto].
    exists s1, b. rewrite (accrue_led s a s1 Hacc) in H4.
    do 6 (split; [assumption|]). split; [intros c v Hne; rewrite H6 by auto; eapply accrue_debts; eauto|].
    split; [exact H7|]. intros c v. rewrite H8. eapply accrue_deps; eauto.
  Qed.
  Lemma repay_all_full s w a s' : linv s -> repay_all C P s w a = Ok s' ->
    exists s1 b, accrue C s a = Ok s1 /\ borrow_balance s1 w a = Ok b /\ borrow_balance s' w a = Ok 0 /\
      moved (ln_led s) (ln_led s') a w (ln_acct C) b.
  Proof.
    intros Hi H. unfold repay_all in H. bstep H mk E1. bstep H s1 E2. bstep H b E3.
    pose proof (accrue_linv C _ _ _ Hi E2) as Hi1.
    apply repay_full in H as (s2 & b2 & H1 & H2 & H3 & H4 & H5 & _); auto.
    assert (borrow_balance s2 w a = borrow_balance s1 w a) as Heq.
    { apply balance_eq; [eapply accrue_twice_index; eauto|eapply accrue_debts; eauto]. }
    assert (b2 = b) as -> by congruence. exists s1, b. rewrite (accrue_led s a s1 E2) in H5. rewrite Z.sub_diag in H4. auto.
  Qed.

  (** *** borrow *)
  Lemma borrow_full s w a amt s' : linv s -> is_u128 amt -> w <> ln_acct C -> do_borrow C P s w a amt = Ok s' ->
    exists mk s1 b, ln_mkts s !! a = Some mk /\ mk_state mk = Active /\ accrue C s a = Ok s1 /\ borrow_balance s1 w a = Ok b /\
      borrow_balance s' w a = Ok (b + amt) /\ moved (ln_led s) (ln_led s') a (ln_acct C) w amt /\
      borrows_of s' a = borrows_of s1 a + amt /\ borrows_of s' a <= mk_bcap mk /\ reserves_of s' a = reserves_of s1 a /\
      reserves_of s' a <= bal (ln_led s') a (ln_acct C) /\
      (forall c v, (c, v) <> (a, w) -> debt_of s' c v = debt_of s c v) /\ (forall c, index_of s' c = index_of s1 c) /\
      (forall c v, dep_of s' c v = dep_of s c v).
  Proof.
    intros Hi Ha Hw H. apply do_borrow_eff in H as (mk & s1 & R & E & X & Y & Z & b & val & L & Hm & Hact & Hacc & Hcap & Hcash & Hval & Hliq & Hb & Hb1 & Hb2 & HL & ->).
    pose proof (accrue_linv C _ _ _ Hi Hacc) as [Hi1 _]. pose proof (li_mkt s1 Hi1 a mk (accrue_keeps_mkts C _ _ _ _ _ Hacc Hm)) as [_ Hf]. pose proof FDIV_pos.
    exists mk, s1, b. do 4 (split; [assumption|]).
    set (s' := st_led _ L).
    assert (Hacc' : forall c, acc_of s' c = if decide (c = a) then set_borrows (acc_of s1 a) (borrows_of s1 a + amt) else acc_of s1 c).
    { intros c. change (acc_of s' c) with (acc_of (put_acc (put_debt (aux s1 R E X Y Z) a w (mkDebt (b + amt) (index_of s1 a))) a (set_borrows (acc_of s1 a) (borrows_of s1 a + amt))) c).
      rewrite acc_of_put. destruct (decide _); reflexivity. }
    assert (Hix : forall c, index_of s' c = index_of s1 c).
    { intros c. unfold index_of. rewrite Hacc'. destruct (decide _) as [->|]; reflexivity. }
    assert (Hd : forall c v, debt_of s' c v = if decide ((c, v) = (a, w)) then mkDebt (b + amt) (index_of s1 a) else debt_of s1 c v).
    { intros c v. change (debt_of s' c v) with (debt_of (put_debt (aux s1 R E X Y Z) a w (mkDebt (b + amt) (index_of s1 a))) c v).
      rewrite debt_of_put. reflexivity. }
    assert (HM : moved (ln_led s1) (ln_led s') a (ln_acct C) w amt) by (eapply transfer_moved; exact HL).
    split. { apply balance_at_index; [rewrite Hix; lia|exact Hb1|]. rewrite Hix, Hd. destruct (decide _); congruence. }
    split. { rewrite <- (accrue_led s a s1 Hacc). exact HM. }
    assert (Hbo : borrows_of s' a = borrows_of s1 a + amt). { unfold borrows_of at 1. rewrite Hacc'. destruct (decide _); [reflexivity|congruence]. }
    assert (Hre : reserves_of s' a = reserves_of s1 a). { unfold reserves_of. rewrite Hacc'. destruct (decide _); [reflexivity|congruence]. }
    split; [exact Hbo|]. split; [lia|]. split; [exact Hre|]. split.
    { rewrite Hre, (HM a (ln_acct C)). unfold at_. rewrite (bool_decide_true (a = a /\ ln_acct C = ln_acct C)) by auto.
      rewrite bool_decide_false by intuition congruence. unfold cash in Hcash. lia. }
    split. { intros c v Hne. rewrite Hd. destruct (decide _); [congruence|]. eapply accrue_debts; eauto. }
    split; [exact Hix|]. intros c v. change (dep_of s' c v) with (dep_of s1 c v). eapply accrue_deps; eauto.
  Qed.

  (** *** mint *)
  Lemma mint_full s w a amt s' : linv s -> is_u128 amt -> w <> ln_acct C -> do_mint C P s w a amt = Ok s' ->
    exists mk s1 r v, ln_mkts s !! a = Some mk /\ mk_state mk = Active /\ accrue C s a = Ok s1 /\ exrate C s1 a = Ok r /\
      0 < amt /\ v = amt * FDIV / r /\ 0 < v /\
      vouchers s' a w = vouchers s a w + v /\ is_collateral s' a w = is_collateral s a w /\ supply_of s' a = supply_of s a + v /\
      moved (ln_led s) (ln_led s') a w (ln_acct C) amt /\ bal (ln_led s') a (ln_acct C) <= mk_scap mk /\
      (forall c x, (c, x) <> (a, w) -> dep_of s' c x = dep_of s c x) /\ (forall c x, debt_of s' c x = debt_of s c x).
  Proof.
    intros Hi Ha Hw H. apply do_mint_eff in H as (H0 & mk & s1 & R & E & X & Y & Z & r & v & L & Hm & Hact & Hcap & Hacc & Hr & Hv0 & Hr0 & Hv & HL & B1 & B2 & ->).
    exists mk, s1, r, v. do 4 (split; [assumption|]). split; [destruct Ha; lia|]. split; [assumption|]. split; [lia|].
    pose proof (accrue_full C s a s1 (proj1 Hi) Hacc) as (X1 & Hs1 & (A1 & _) & _).
    assert (HM : moved (ln_led s) L a w (ln_acct C) amt). { rewrite <- (accrue_led s a s1 Hacc). eapply transfer_moved; exact HL. }
    set (s' := put_acc _ a _).
    assert (Hd : forall c x, dep_of s' c x = if decide ((c, x) = (a, w)) then mkDep (vouchers s a w + v) (is_collateral s a w) else dep_of s c x).
    { intros c x. change (dep_of s' c x) with (dep_of (put_dep (st_led (aux s1 R E X Y Z) L) a w (mkDep (vouchers s1 a w + v) (is_collateral s1 a w))) c x).
      rewrite dep_of_put. change (dep_of (st_led (aux s1 R E X Y Z) L) c x) with (dep_of s1 c x). unfold vouchers, is_collateral.
      rewrite !(accrue_deps s a s1 _ _ Hacc). reflexivity. }
    split. { unfold vouchers at 1. rewrite Hd. destruct (decide _); [reflexivity|congruence]. }
    split. { unfold is_collateral at 1. rewrite Hd. destruct (decide _); [reflexivity|congruence]. }
    split. { unfold s'. rewrite supply_put_acc. destruct (decide _); [|congruence]. cbn. unfold supply_of. rewrite A1. reflexivity. }
    split; [exact HM|]. split.
    { change (ln_led s') with L. rewrite (HM a (ln_acct C)). unfold at_. rewrite (bool_decide_true (a = a /\ ln_acct C = ln_acct C)) by auto.
      rewrite bool_decide_false by intuition congruence. lia. }
    split. { intros c x Hne. rewrite Hd. destruct (decide _); [congruence|reflexivity]. }
    intros c x. change (debt_of s' c x) with (debt_of s1 c x). eapply accrue_debts; eauto.
  Qed.

  (** *** redeem *)
  Lemma redeem_eff_full s w a v x s' : redeem_eff C P s w a v x s' -> w <> ln_acct C ->
    exists r, exrate C s a = Ok r /\ x = v * r / FDIV /\ v <= vouchers s a w /\
      vouchers s' a w = vouchers s a w - v /\ supply_of s' a = supply_of s a - v /\
      (vouchers s' a w <> 0 -> is_collateral s' a w = is_collateral s a w) /\
      moved (ln_led s) (ln_led s') a (ln_acct C) w x /\ reserves_of s' a = reserves_of s a /\
      reserves_of s' a <= bal (ln_led s') a (ln_acct C) /\
      (forall c y, (c, y) <> (a, w) -> dep_of s' c y = dep_of s c y) /\ (forall c y, debt_of s' c y = debt_of s c y) /\
      (forall c, index_of s' c = index_of s c).
  Proof.
    intros (R & E & X & Y & Z & r & L & Hv & Hr & -> & Hx & Hc & Hc0 & Hd0 & Hs0 & _ & HL & ->) Hw.
    exists r. do 3 (split; [first [assumption|reflexivity]|]).
    set (s3 := put_dep_or_remove (aux s R E X Y Z) a w (mkDep (vouchers s a w - v) (is_collateral s a w))).
    set (s' := st_led _ L).
    assert (Hdep : forall c y, dep_of s' c y = dep_of s3 c y) by reflexivity.
    assert (Hacc : forall c, acc_of s' c = if decide (c = a) then set_supply (acc_of s a) (supply_of s a - v) else acc_of s c).
    { intros c. change (acc_of s' c) with (acc_of (put_acc s3 a (set_supply (acc_of s a) (supply_of s a - v))) c). rewrite acc_of_put.
      destruct (decide _); [reflexivity|]. unfold s3, put_dep_or_remove. destruct (_ =? 0); reflexivity. }
    assert (HM : moved (ln_led s) L a (ln_acct C) w (v * r / FDIV)) by (eapply transfer_moved; exact HL).
    split. { unfold vouchers at 1. rewrite Hdep. fold (vouchers s3 a w). unfold s3. rewrite vouchers_put_rm. destruct (decide _); [reflexivity|congruence]. }
    split. { unfold supply_of at 1. rewrite Hacc. destruct (decide _); [reflexivity|congruence]. }
    split. { unfold vouchers, is_collateral. rewrite Hdep. unfold s3. rewrite dep_of_put_rm. destruct (decide _); [|congruence]. cbn.
             destruct (_ =? 0) eqn:E0; cbn; [congruence|reflexivity]. }
    split; [exact HM|].
    assert (Hre : reserves_of s' a = reserves_of s a). { unfold reserves_of. rewrite Hacc. destruct (decide _); [reflexivity|congruence]. }
    split; [exact Hre|]. split.
    { rewrite Hre. change (ln_led s') with L. rewrite (HM a (ln_acct C)). unfold at_. rewrite (bool_decide_true (a = a /\ ln_acct C = ln_acct C)) by auto.
      rewrite bool_decide_false by intuition congruence. unfold cash in Hc. lia. }
    split. { intros c y Hne. rewrite Hdep. unfold s3. rewrite dep_of_put_rm. destruct (decide _); [congruence|reflexivity]. }
    split. { intros c y. unfold s', debt_of, put_acc, s3, put_dep_or_remove; cbn. destruct (_ =? 0); reflexivity. }
    intros c. unfold index_of. rewrite Hacc. destruct (decide _) as [->|]; reflexivity.
  Qed.
  Lemma redeem_full s w a sel s' x : linv s -> w <> ln_acct C -> redeem_all_eff C P s w a sel s' x ->
    exists s1 s2 r v, accrue C s a = Ok s1 /\ core_eq s1 s2 /\ exrate C s1 a = Ok r /\ v = sel s2 r /\ x = v * r / FDIV /\ v <= vouchers s a w /\
      vouchers s' a w = vouchers s a w - v /\ supply_of s' a = supply_of s a - v /\
      (vouchers s' a w <> 0 -> is_collateral s' a w = is_collateral s a w) /\
      moved (ln_led s) (ln_led s') a (ln_acct C) w x /\ reserves_of s' a <= bal (ln_led s') a (ln_acct C) /\
      (forall c y, (c, y) <> (a, w) -> dep_of s' c y = dep_of s c y) /\ (forall c y, debt_of s' c y = debt_of s c y).
  Proof.
    intros Hi Hw (mk & s1 & s2 & r & Hm & _ & Hacc & Hr & Hc & H).
    apply redeem_eff_full in H as (r' & H1 & H2 & H3 & H4 & H5 & H6 & H7 & _ & H8 & H9 & H10 & _); auto.
    pose proof (accrue_full C s a s1 (proj1 Hi) Hacc) as (X1 & Hs1 & (A1 & _) & _).
    destruct Hc as (R & E & X & Y & Z & ->). change (exrate C (aux s1 R E X Y Z) a) with (exrate C s1 a) in H1.
    assert (r' = r) as -> by congruence.
    change (dep_of (aux s1 R E X Y Z)) with (dep_of s1) in *. change (debt_of (aux s1 R E X Y Z)) with (debt_of s1) in *.
    change (vouchers (aux s1 R E X Y Z) a w) with (vouchers s1 a w) in *. change (is_collateral (aux s1 R E X Y Z) a w) with (is_collateral s1 a w) in *.
    change (supply_of (aux s1 R E X Y Z) a) with (supply_of s1 a) in *. change (ln_led (aux s1 R E X Y Z)) with (ln_led s1) in *.
    rewrite (accrue_led s a s1 Hacc) in H7.
    assert (Hvw : vouchers s1 a w = vouchers s a w) by (unfold vouchers; rewrite (accrue_deps s a s1 _ _ Hacc); reflexivity).
    assert (Hcw : is_collateral s1 a w = is_collateral s a w) by (unfold is_collateral; rewrite (accrue_deps s a s1 _ _ Hacc); reflexivity).
    rewrite Hvw in *. rewrite Hcw in *. unfold supply_of in H5 at 2. rewrite A1 in H5.
    exists s1, (aux s1 R E X Y Z), r, (sel (aux s1 R E X Y Z) r). split; [exact Hacc|]. split; [eexists _, _, _, _, _; reflexivity|].
    do 9 (split; [first [assumption|reflexivity]|]).
    split. { intros c y Hne. rewrite H9 by auto. eapply accrue_deps; eauto. }
    intros c y. rewrite H10. eapply accrue_debts; eauto.
  Qed.
End fx.
