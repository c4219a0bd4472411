(** * LoansProofs3: the state invariant of the loans pallet and its preservation by every call. *)
From Verif Require Import Base MapSum Ledger AmmModel LoansModel LoansSpec LoansProofs LoansProofs2.

(** ** storage lookups after updates *)
Lemma acc_of_put s a m b : acc_of (put_acc s a m) b = if decide (b = a) then m else acc_of s b.
Proof.
  unfold acc_of, put_acc; cbn. destruct (decide (b = a)) as [->|E]; [rewrite lookup_insert|rewrite lookup_insert_ne by congruence]; reflexivity.
Qed.
Lemma dep_of_put s a w d b v : dep_of (put_dep s a w d) b v = if decide ((b, v) = (a, w)) then d else dep_of s b v.
Proof.
  unfold dep_of, put_dep; cbn. destruct (decide ((b, v) = (a, w))) as [->|E]; [rewrite lookup_insert|rewrite lookup_insert_ne by congruence]; reflexivity.
Qed.
Lemma dep_of_put_rm s a w d b v : dep_of (put_dep_or_remove s a w d) b v =
  if decide ((b, v) = (a, w)) then (if d_v d =? 0 then dep0 else d) else dep_of s b v.
Proof.
  unfold put_dep_or_remove. destruct (d_v d =? 0); [|apply dep_of_put].
  unfold dep_of; cbn. destruct (decide ((b, v) = (a, w))) as [->|E]; [rewrite lookup_delete|rewrite lookup_delete_ne by congruence]; reflexivity.
Qed.
Lemma vouchers_put s a w d b v : vouchers (put_dep s a w d) b v = if decide ((b, v) = (a, w)) then d_v d else vouchers s b v.
Proof. unfold vouchers. rewrite dep_of_put. destruct (decide _); reflexivity. Qed.
Lemma vouchers_put_rm s a w d b v : vouchers (put_dep_or_remove s a w d) b v = if decide ((b, v) = (a, w)) then d_v d else vouchers s b v.
Proof.
  unfold vouchers. rewrite dep_of_put_rm. destruct (decide _); [|reflexivity].
  destruct (Z.eqb_spec (d_v d) 0) as [E|E]; [rewrite E|]; reflexivity.
Qed.
Lemma debt_of_put s a w d b v : debt_of (put_debt s a w d) b v = if decide ((b, v) = (a, w)) then d else debt_of s b v.
Proof.
  unfold debt_of, put_debt; cbn. destruct (decide ((b, v) = (a, w))) as [->|E]; [rewrite lookup_insert|rewrite lookup_insert_ne by congruence]; reflexivity.
Qed.

Lemma voucher_sum_put s a w d b : voucher_sum (put_dep s a w d) b = voucher_sum s b + (if decide (b = a) then d_v d - vouchers s a w else 0).
Proof.
  unfold voucher_sum, put_dep, vouchers, dep_of; cbn. rewrite msum_insert.
  destruct (ln_deps s !! (a, w)) as [d0|] eqn:E; cbn; repeat case_bool_decide; repeat destruct (decide _); subst; try congruence; cbn in *; lia.
Qed.
Lemma voucher_sum_put_rm s a w d b : voucher_sum (put_dep_or_remove s a w d) b = voucher_sum s b + (if decide (b = a) then d_v d - vouchers s a w else 0).
Proof.
  unfold put_dep_or_remove. destruct (d_v d =? 0) eqn:E0; [|apply voucher_sum_put].
  unfold voucher_sum, vouchers, dep_of; cbn. destruct (ln_deps s !! (a, w)) as [d0|] eqn:E; cbn.
  - rewrite (msum_delete _ (ln_deps s) (a, w) d0 E). cbn. repeat case_bool_decide; repeat destruct (decide _); subst; try congruence; lia.
  - rewrite delete_notin by auto. destruct (decide _); lia.
Qed.

(** ** The invariant *)
Record linv0 (s : loans) : Prop := mkLinv0 {
  li_led : ledger_wf (ln_led s);
  li_dep : forall a w, 0 <= vouchers s a w <= U128MAX;
  li_acc : forall a, is_u128 (supply_of s a) /\ is_u128 (borrows_of s a) /\ is_u128 (reserves_of s a) /\ is_u128 (index_of s a);
  li_mkt : forall a mk, ln_mkts s !! a = Some mk -> market_typed mk /\ FDIV <= index_of s a;
  li_debt : forall a w, 0 <= b_p (debt_of s a w) <= U128MAX /\ 0 <= b_i (debt_of s a w) <= index_of s a /\
              (b_i (debt_of s a w) = 0 \/ FDIV <= b_i (debt_of s a w));
  li_time : forall a, 0 <= m_last (acc_of s a) <= ln_time s;
  li_clock : 0 <= ln_time s <= U64MAX /\ 0 <= ln_block s <= U32MAX;
  li_price : forall a x, ln_price s !! a = Some x -> is_u128 x;
  li_none : forall a, ln_mkts s !! a = None -> index_of s a = 0
}.
Definition linv (s : loans) : Prop := linv0 s /\ forall a, voucher_sum s a = supply_of s a.

Lemma linv0_aux s R E X Y Z : linv0 s -> linv0 (aux s R E X Y Z).
Proof. intros [H1 H2 H3 H4 H5 H6 H7 H8 H9]. constructor; assumption. Qed.
Lemma linv0_led s L : linv0 s -> ledger_wf L -> linv0 (st_led s L).
Proof. intros [H1 H2 H3 H4 H5 H6 H7 H8 H9] HL. constructor; assumption. Qed.
Lemma linv0_dep s a w d : linv0 s -> 0 <= d_v d <= U128MAX -> linv0 (put_dep s a w d).
Proof.
  intros [H1 H2 H3 H4 H5 H6 H7 H8 H9] Hd. constructor; try assumption.
  intros b v. rewrite vouchers_put. destruct (decide _); auto.
Qed.
Lemma linv0_dep_rm s a w d : linv0 s -> 0 <= d_v d <= U128MAX -> linv0 (put_dep_or_remove s a w d).
Proof.
  intros H Hd. unfold put_dep_or_remove. destruct (d_v d =? 0) eqn:E; [|apply linv0_dep; auto].
  destruct H as [H1 H2 H3 H4 H5 H6 H7 H8 H9]. constructor; try assumption.
  intros b v. pose proof (vouchers_put_rm s a w d b v) as Hv. unfold put_dep_or_remove in Hv. rewrite E in Hv. rewrite Hv.
  destruct (decide _); auto.
Qed.
Lemma linv0_debt s a w d : linv0 s -> 0 <= b_p d <= U128MAX -> 0 <= b_i d <= index_of s a -> (b_i d = 0 \/ FDIV <= b_i d) ->
  linv0 (put_debt s a w d).
Proof.
  intros [H1 H2 H3 H4 H5 H6 H7 H8 H9] Hd Hi Hf. constructor; try assumption.
  intros b v. rewrite debt_of_put. destruct (decide _) as [E|E]; [injection E as -> ->; auto|apply H5].
Qed.
Lemma linv0_acc s a m : linv0 s -> is_u128 (m_supply m) -> is_u128 (m_borrows m) -> is_u128 (m_res m) -> is_u128 (m_index m) ->
  index_of s a <= m_index m -> (m_index m = index_of s a \/ ln_mkts s !! a <> None) -> 0 <= m_last m <= ln_time s -> linv0 (put_acc s a m).
Proof.
  intros [H1 H2 H3 H4 H5 H6 H7 H8 H9] Hs Hb Hr Hi Hm Hn Hl.
  assert (Hx : forall b, index_of s b <= index_of (put_acc s a m) b).
  { intros b. unfold index_of. rewrite acc_of_put. destruct (decide _) as [->|E]; [apply Hm|lia]. }
  constructor; try assumption.
  - intros b. unfold supply_of, borrows_of, reserves_of, index_of. rewrite acc_of_put. destruct (decide _); [auto|apply H3].
  - intros b mk Hb'. specialize (Hx b). destruct (H4 b mk Hb'). split; [auto|lia].
  - intros b w. specialize (Hx b). pose proof (H5 b w) as (? & ? & ?). change (debt_of (put_acc s a m) b w) with (debt_of s b w).
    repeat split; auto; lia.
  - intros b. rewrite acc_of_put. destruct (decide _); [auto|apply H6].
  - intros b Hb'. specialize (H9 b Hb'). unfold index_of. rewrite acc_of_put. destruct (decide _) as [->|]; [|exact H9].
    destruct Hn as [->|Hn]; [exact H9|]. cbn in Hb'. congruence.
Qed.
Lemma linv0_core s s' : core_eq s s' -> linv0 s -> linv0 s'.
Proof. intros (R&E&X&Y&Z&->). apply linv0_aux. Qed.
Lemma sum_core s s' a : core_eq s s' -> voucher_sum s' a = voucher_sum s a /\ supply_of s' a = supply_of s a.
Proof. intros (R&E&X&Y&Z&->). split; reflexivity. Qed.
Lemma linv_core s s' : core_eq s s' -> linv s -> linv s'.
Proof. intros Hc [H1 H2]. split; [eapply linv0_core; eauto|]. intros a. destruct (sum_core _ _ a Hc) as [-> ->]. auto. Qed.
Lemma linv_led s L : linv s -> ledger_wf L -> linv (st_led s L).
Proof. intros [H1 H2] HL. split; [apply linv0_led; auto|]. exact H2. Qed.

Section inv.
  Context (C : loans_cfg) (P : policy).

  Lemma linv_rf s : linv0 s -> forall a mk, ln_mkts s !! a = Some mk -> is_permill (mk_rf mk).
  Proof. intros H a mk Hm. destruct (li_mkt s H a mk Hm) as [Hty _]. apply Hty. Qed.

  Lemma accrue_full s a s1 : linv0 s -> accrue C s a = Ok s1 ->
    exists X, s1 = st_acc s X /\ accr (ln_time s) (acc_of s a) (acc_of s1 a) /\ (forall b, b <> a -> acc_of s1 b = acc_of s b).
  Proof.
    intros Hi H. apply (accrue_spec C); auto.
    - intros mk. apply linv_rf; auto.
    - apply (li_acc s Hi).
    - apply (li_acc s Hi).
  Qed.
  Lemma accrue_linv s a s1 : linv s -> accrue C s a = Ok s1 -> linv s1.
  Proof.
    intros [Hi Hsum] H. pose proof (li_acc s Hi a) as (Hs & Hb & Hr & Hx). pose proof (li_time s Hi a) as Ht.
    pose proof (li_clock s Hi) as [Hc _].
    assert (Hi1 : linv0 s1).
    { pose proof (accrue_full s a s1 Hi H) as (X & -> & Ha & _).
      apply accrue_unfold in H as [[H0 HX]|[(H0 & H1 & HX)|(H0 & H1 & H)]].
      - rewrite HX. apply linv0_acc; auto; cbn; try assumption; unfold index_of; try lia.
      - rewrite HX. auto.
      - destruct H as (mk & util & rate & i & d & ex & Hm & _ & Hrate & Hii & Hd & _ & B1 & B2 & B3 & HX).
        rewrite HX in Ha. rewrite HX. rewrite acc_of_put in Ha. destruct (decide (a = a)); [|congruence].
        destruct Ha as (_ & A2 & A3 & A4 & A5 & A6). cbn in A2, A3, A4, A5.
        apply linv0_acc; auto; cbn; unfold is_u128, supply_of, borrows_of, reserves_of, index_of in *; try lia. right. congruence. }
    split; auto. pose proof (accrue_full s a s1 Hi H) as (X & Hs1 & Ha & Hn).
    intros b. assert (supply_of s1 b = supply_of s b) as ->.
    { unfold supply_of. destruct (decide (b = a)) as [->|E]; [apply Ha|rewrite Hn; auto]. }
    rewrite Hs1. apply Hsum.
  Qed.

  Lemma put_acc_sum s a m b : voucher_sum (put_acc s a m) b = voucher_sum s b. Proof. reflexivity. Qed.
  Lemma supply_put_acc s a m b : supply_of (put_acc s a m) b = if decide (b = a) then m_supply m else supply_of s b.
  Proof. unfold supply_of. rewrite acc_of_put. destruct (decide _); reflexivity. Qed.

  Lemma mint_linv s w a amt s' : is_u128 amt -> linv s -> do_mint C P s w a amt = Ok s' -> linv s'.
  Proof.
    intros Ha Hi H. apply do_mint_eff in H as (H0 & mk & s1 & R & E & X & Y & Z & r & v & L & Hm & _ & _ & Hacc & Hr & -> & Hr0 & Hv & HL & B1 & B2 & ->).
    apply accrue_linv in Hacc; auto. destruct Hacc as [Hi1 Hs1].
    pose proof (li_acc s1 Hi1 a) as (Hs & Hb & Hre & Hx). pose proof (li_dep s1 Hi1 a w) as Hd. pose proof (li_time s1 Hi1 a) as Ht.
    pose proof (transfer_wf _ _ _ _ _ _ _ _ (proj1 Ha) (li_led s1 Hi1) HL) as HLw.
    split.
    - apply linv0_acc; cbn; auto; try (unfold is_u128 in *; lia); [|unfold index_of, acc_of; cbn; lia].
      apply linv0_dep; cbn; [|lia]. apply linv0_led; auto. apply linv0_aux; auto.
    - intros b. rewrite put_acc_sum, supply_put_acc, voucher_sum_put; cbn.
      change (voucher_sum (st_led (aux s1 R E X Y Z) L) b) with (voucher_sum s1 b).
      change (supply_of (put_dep _ _ _ _) b) with (supply_of s1 b).
      change (vouchers (st_led (aux s1 R E X Y Z) L) a w) with (vouchers s1 a w).
      rewrite Hs1. destruct (decide _) as [->|]; lia.
  Qed.

  Lemma redeem_eff_linv s w a v x s' : 0 <= v -> linv s -> redeem_eff C P s w a v x s' -> linv s'.
  Proof.
    intros Hv0 [Hi Hsum] (R & E & X & Y & Z & r & L & Hv & Hr & -> & Hx & Hc & Hc0 & Hd0 & Hs0 & _ & HL & ->).
    pose proof (li_acc s Hi a) as (Hs & Hb & Hre & Hix). pose proof (li_dep s Hi a w) as Hd. pose proof (li_time s Hi a) as Ht.
    pose proof (transfer_wf _ _ _ _ _ _ _ _ (proj1 Hx) (li_led s Hi) HL) as HLw.
    assert (Hacc : forall d b, acc_of (put_dep_or_remove (aux s R E X Y Z) a w d) b = acc_of s b).
    { intros d b. unfold put_dep_or_remove. destruct (_ =? 0); reflexivity. }
    apply linv_led; auto. split.
    - apply linv0_acc; cbn; auto; try (unfold is_u128, supply_of in *; lia).
      + apply linv0_dep_rm; cbn; [|lia]. apply linv0_aux; auto.
      + unfold index_of. rewrite Hacc. lia.
      + left. unfold index_of. rewrite Hacc. reflexivity.
      + assert (ln_time (put_dep_or_remove (aux s R E X Y Z) a w (mkDep (vouchers s a w - v) (is_collateral s a w))) = ln_time s) as ->; [|lia].
        unfold put_dep_or_remove. destruct (_ =? 0); reflexivity.
    - intros b. rewrite put_acc_sum, supply_put_acc, voucher_sum_put_rm; cbn.
      change (voucher_sum (aux s R E X Y Z) b) with (voucher_sum s b).
      change (vouchers (aux s R E X Y Z) a w) with (vouchers s a w).
      unfold supply_of at 2. rewrite Hacc. change (m_supply (acc_of s b)) with (supply_of s b).
      rewrite Hsum. destruct (decide _) as [->|]; lia.
  Qed.
  Lemma exrate_pos s a r : exrate C s a = Ok r -> MIN_VALID_EXRATE <= r < MAX_EXRATE.
  Proof.
    unfold exrate. intros H. apply calc_exrate_ok in H as [[_ ->]|(_ & _ & _ & H)]; auto.
    rewrite MIN_EXRATE_val, MIN_VALID_val, MAX_EXRATE_val. lia.
  Qed.
  Lemma redeem_all_eff_linv s w a sel s' x :
    (forall s2 r, linv s2 -> MIN_VALID_EXRATE <= r -> 0 <= sel s2 r) -> linv s -> redeem_all_eff C P s w a sel s' x -> linv s'.
  Proof.
    intros Hsel Hi (mk & s1 & s2 & r & Hm & _ & Hacc & Hr & Hc & H).
    apply accrue_linv in Hacc; auto. assert (Hi2 : linv s2) by (eapply linv_core; eauto).
    eapply redeem_eff_linv; [|exact Hi2|exact H]. apply Hsel; auto. apply exrate_pos in Hr. lia.
  Qed.
  Lemma sel_amt_ok amt : 0 <= amt -> forall (s2 : loans) r, linv s2 -> MIN_VALID_EXRATE <= r -> 0 <= amt * FDIV / r.
  Proof. intros H s2 r _ Hr. apply Z.div_pos; [pose proof FDIV_pos; nia|rewrite MIN_VALID_val in Hr; lia]. Qed.
  Lemma sel_all_ok w a : forall (s2 : loans) (r : Z), linv s2 -> MIN_VALID_EXRATE <= r -> 0 <= vouchers s2 a w.
  Proof. intros s2 r [H _] _. apply (li_dep s2 H). Qed.

  Lemma borrow_linv s w a amt s' : is_u128 amt -> linv s -> do_borrow C P s w a amt = Ok s' -> linv s'.
  Proof.
    intros Ha Hi H. apply do_borrow_eff in H as (mk & s1 & R & E & X & Y & Z & b & val & L & Hm & _ & Hacc & Hcap & Hcash & Hval & Hliq & Hb & Hb1 & Hb2 & HL & ->).
    pose proof (accrue_mkts C _ _ _ Hacc) as [X1 Hs1].
    apply accrue_linv in Hacc; auto. destruct Hacc as [Hi1 Hsum].
    pose proof (li_acc s1 Hi1 a) as (Hs & Hbo & Hre & Hix). pose proof (li_time s1 Hi1 a) as Ht.
    pose proof (transfer_wf _ _ _ _ _ _ _ _ (proj1 Ha) (li_led s1 Hi1) HL) as HLw.
    assert (Hmk1 : ln_mkts s1 !! a = Some mk) by (rewrite Hs1; exact Hm). pose proof (li_mkt s1 Hi1 a mk Hmk1) as [_ Hf].
    apply linv_led; auto. split.
    - apply linv0_acc; cbn; auto; [|unfold index_of, acc_of; cbn; lia].
      apply linv0_debt; cbn; try (unfold is_u128 in *; lia). + apply linv0_aux; auto. + change (index_of (aux s1 R E X Y Z) a) with (index_of s1 a). unfold is_u128 in *. lia.
    - intros c. rewrite put_acc_sum, supply_put_acc; cbn. change (voucher_sum (put_debt _ _ _ _) c) with (voucher_sum s1 c).
      change (supply_of (put_debt _ _ _ _) c) with (supply_of s1 c). rewrite Hsum. destruct (decide _) as [->|]; reflexivity.
  Qed.
  Lemma repay_eff_linv s w a amt s' : is_u128 amt -> linv s -> (exists mk, ln_mkts s !! a = Some mk) -> repay_eff C P s w a amt s' -> linv s'.
  Proof.
    intros Ha [Hi Hsum] [mk Hm] (R & E & X & Y & Z & b & L & Hb & Hle & Hb1 & HL & ->).
    pose proof (li_acc s Hi a) as (Hs & Hbo & Hre & Hix). pose proof (li_time s Hi a) as Ht.
    pose proof (transfer_wf _ _ _ _ _ _ _ _ (proj1 Ha) (li_led s Hi) HL) as HLw.
    pose proof (li_mkt s Hi a mk Hm) as [_ Hf].
    split.
    - apply linv0_acc; cbn; auto; [|unfold is_u128 in *; lia|unfold index_of, acc_of; cbn; lia].
      apply linv0_debt; cbn; try (unfold is_u128 in *; lia).
      + apply linv0_led; auto. apply linv0_aux; auto.
      + change (index_of (st_led (aux s R E X Y Z) L) a) with (index_of s a). unfold is_u128 in *. lia.
    - intros c. rewrite put_acc_sum, supply_put_acc; cbn. change (voucher_sum (put_debt _ _ _ _) c) with (voucher_sum s c).
      change (supply_of (put_debt _ _ _ _) c) with (supply_of s c). rewrite Hsum. destruct (decide _) as [->|]; reflexivity.
  Qed.
  Lemma accrue_keeps_mkts s a s1 b mk : accrue C s a = Ok s1 -> ln_mkts s !! b = Some mk -> ln_mkts s1 !! b = Some mk.
  Proof. intros H Hm. apply accrue_mkts in H as [X ->]. exact Hm. Qed.
  Lemma repay_linv s w a amt s' : is_u128 amt -> linv s -> do_repay C P s w a amt = Ok s' -> linv s'.
  Proof.
    intros Ha Hi H. apply do_repay_eff in H as (mk & s1 & Hm & _ & Hacc & H).
    eapply repay_eff_linv; [exact Ha| eapply accrue_linv; eauto | | exact H].
    exists mk. eapply accrue_keeps_mkts; eauto.
  Qed.
  Lemma borrow_balance_u128 s w a b : borrow_balance s w a = Ok b -> is_u128 b.
  Proof.
    unfold borrow_balance. destruct (_ || _).
    - intros [= <-]. unfold is_u128. pose proof U128MAX_pos. lia.
    - intros H. ok_simpl H. apply obind_some in H as (r & _ & H). ok_arith H. exact (proj2 H).
  Qed.
  Lemma repay_all_linv s w a s' : linv s -> repay_all C P s w a = Ok s' -> linv s'.
  Proof.
    intros Hi H. unfold repay_all in H. bstep H mk E1. bstep H s1 E2. bstep H b E3.
    eapply repay_linv; [| |exact H]; [eapply borrow_balance_u128; eauto|eapply accrue_linv; eauto].
  Qed.
  Lemma collateral_linv s w a e s' : linv s -> do_collateral C s w a e = Ok s' -> linv s'.
  Proof.
    intros [Hi Hsum] H. apply do_collateral_eff in H as (mk & d & _ & _ & Hd & -> & _).
    assert (Hdv : d_v d = vouchers s a w) by (unfold vouchers, dep_of; rewrite Hd; reflexivity).
    pose proof (li_dep s Hi a w). split.
    - apply linv0_dep; cbn; auto. lia.
    - intros b. rewrite voucher_sum_put; cbn. change (supply_of (put_dep _ _ _ _) b) with (supply_of s b). rewrite Hsum.
      destruct (decide _); lia.
  Qed.
  Lemma liq_eff_linv s liq w la amt ca s' : is_u128 amt -> linv s -> liq_eff C P s liq w la amt ca s' -> linv s'.
  Proof.
    intros Ha [Hi Hsum] (mk & d & r & rv & lv & cp & under & k & inc & b & R & E & X & Y & Z & L & Hm & _ & Hne & _ & Hd & _ & _ & _ & _ & _ & _ & HL & Hb & Hb1 & Hb2 & s5 & Hs5 & r' & R' & E' & X' & Y' & Z' & _ & Hk & Hkd & Hinc & Hki & -> & Hv1 & Hv2).
    pose proof (li_acc s Hi la) as (Hs & Hbo & Hre & Hix). pose proof (li_time s Hi la) as Ht.
    pose proof (transfer_wf _ _ _ _ _ _ _ _ (proj1 Ha) (li_led s Hi) HL) as HLw.
    pose proof (li_mkt s Hi la mk Hm) as [_ Hf].
    assert (H5 : linv s5).
    { subst s5. split.
      - apply linv0_acc; cbn; auto; [|unfold index_of, acc_of; cbn; lia].
        apply linv0_debt; cbn; try (unfold is_u128 in *; lia).
        + apply linv0_led; auto. apply linv0_aux; auto.
        + change (index_of (st_led (aux s R E X Y Z) L) la) with (index_of s la). unfold is_u128 in *. lia.
      - intros c. rewrite put_acc_sum, supply_put_acc; cbn. change (voucher_sum (put_debt _ _ _ _) c) with (voucher_sum s c).
        change (supply_of (put_debt _ _ _ _) c) with (supply_of s c). rewrite Hsum. destruct (decide _) as [->|]; reflexivity. }
    destruct H5 as [H5 Hs5'].
    assert (Hd5 : vouchers (aux s5 R' E' X' Y' Z') ca w = d_v d) by (subst s5 d; reflexivity).
    assert (Hk0 : is_u128 k). { unfold to_voucher in Hk. apply ok_or_ok in Hk. apply f_checked_div_some in Hk as (_ & _ & Hk). exact Hk. }
    assert (Hdr : 0 <= d_v d <= U128MAX). { rewrite <- Hd. apply (li_dep s Hi). }
    cbn zeta. split.
    - apply linv0_dep; [|exact Hv2]. apply linv0_dep; [|exact Hv1]. apply linv0_dep; [apply linv0_aux; auto|].
      cbn. unfold is_u128 in *. lia.
    - intros c. rewrite !voucher_sum_put. cbn [d_v].
      change (supply_of (put_dep _ _ _ _) c) with (supply_of s5 c). rewrite Hd5.
      change (voucher_sum (aux s5 R' E' X' Y' Z') c) with (voucher_sum s5 c). rewrite Hs5'.
      destruct (decide _); lia.
  Qed.
  Lemma liquidate_linv s liq w la amt ca s' : is_u128 amt -> linv s -> liquidate C P s liq w la amt ca = Ok s' -> linv s'.
  Proof.
    intros Ha Hi H. unfold liquidate in H. bstep H u0 E0. bstep H s1 E1. bstep H s2 E2.
    apply do_liquidate_eff in H. eapply liq_eff_linv; [exact Ha| |exact H].
    eapply accrue_linv; [|exact E2]. eapply accrue_linv; eauto.
  Qed.
  Lemma transfer_pt_linv s pt src dst amt s' : is_u128 amt -> linv s -> transfer_pt C s pt src dst amt = Ok s' -> linv s'.
  Proof.
    intros Ha [Hi Hsum] H. apply transfer_pt_unfold in H as (R & E & X & Y & Z & u & red & _ & _ & _ & Hge & -> & Hv).
    pose proof (li_dep s Hi u src). cbn zeta. split.
    - apply linv0_dep; [|exact Hv]. apply linv0_dep_rm; [apply linv0_aux; auto|]. cbn. unfold is_u128 in *; lia.
    - intros b. rewrite voucher_sum_put, voucher_sum_put_rm. cbn [d_v].
      change (voucher_sum (aux s R E X Y Z) b) with (voucher_sum s b). change (vouchers (aux s R E X Y Z) u src) with (vouchers s u src).
      change (supply_of (put_dep ?t _ _ _) b) with (supply_of t b).
      assert (supply_of (put_dep_or_remove (aux s R E X Y Z) u src (mkDep (vouchers s u src - amt) (is_collateral s u src))) b = supply_of s b) as ->.
      { unfold put_dep_or_remove. destruct (_ =? 0); reflexivity. }
      rewrite Hsum. destruct (decide _); lia.
  Qed.

  Lemma linv_mkts s mm uu : linv s ->
    (forall a mk, mm !! a = Some mk -> market_typed mk /\ FDIV <= index_of s a) -> (forall a, mm !! a = None -> ln_mkts s !! a = None) -> linv (st_under (st_mkts s mm) uu).
  Proof. intros [[H1 H2 H3 H4 H5 H6 H7 H8 H9] Hs] Hm Hn. split; [constructor; try assumption|exact Hs]. intros a Ha. apply H9. apply Hn, Ha. Qed.

  Lemma put_market_linv s a mk0 mk : linv s -> ln_mkts s !! a = Some mk0 -> market_typed mk -> linv (put_market s a mk).
  Proof.
    intros Hi Hm Ht. change (put_market s a mk) with (st_under (st_mkts s (<[a := mk]> (ln_mkts s))) (ln_under s)).
    apply linv_mkts; auto; [|intros b Hb; apply lookup_insert_None in Hb; apply Hb]. intros b m Hb. destruct Hi as [Hi _]. destruct (decide (b = a)) as [->|E].
    - rewrite lookup_insert in Hb. injection Hb as <-. split; auto. apply (li_mkt s Hi a mk0 Hm).
    - rewrite lookup_insert_ne in Hb by auto. apply (li_mkt s Hi b m Hb).
  Qed.

  Lemma opt_default (Q : Z -> Prop) o x : Q x -> opt_ok Q o -> Q (default x o).
  Proof. destruct o; cbn; auto. Qed.

  Lemma fst_res_ok r s' : fst_res r = Ok s' -> exists x, r = Ok (s', x).
  Proof. unfold fst_res. intros H. bstep H p E. injection H as <-. destruct p. eauto. Qed.

  (** every call preserves the invariant *)
  Lemma exec_linv s c s' : call_ok C c -> linv s -> loans_exec C P s c = Ok s' -> linv s'.
  Proof.
    intros Hc Hi H. destruct c; cbn in Hc, H.
    - (* add_market *)
      unfold add_market in H. bstep H u0 E0. bstep H u1 E1. bstep H u2 E2. bstep H u3 E3. bstep H u4 E4. bstep H u5 E5.
      bstep H u6 E6. bstep H u7 E7. bstep H u8 E8. bstep H u9 E9. injection H as <-.
      apply bool_decide_eq_true in E1. destruct Hi as [Hi Hsum].
      pose proof (li_acc s Hi a) as (Hs & Hb & Hr & Hx). pose proof (li_none s Hi a E1) as Hix.
      destruct Hi as [H1 H2 H3 H4 H5 H6 H7 H8 H9].
      assert (Hge : forall b, index_of s b <= (if decide (b = a) then FDIV else index_of s b)).
      { intros b. destruct (decide _) as [->|]; [rewrite Hix; pose proof FDIV_pos; lia|lia]. }
      assert (Hxe : forall x b, index_of (put_acc x a (mkMacc (m_last (acc_of s a)) (m_supply (acc_of s a)) (m_borrows (acc_of s a)) (m_res (acc_of s a)) FDIV MIN_EXRATE
                 (m_util (acc_of s a)) (m_brate (acc_of s a)) (m_srate (acc_of s a)))) b = if decide (b = a) then FDIV else index_of x b).
      { intros x b. unfold index_of. rewrite acc_of_put. destruct (decide _); reflexivity. }
      split; [constructor; try assumption|].
      + intros b. unfold index_of, supply_of, borrows_of, reserves_of. rewrite acc_of_put. destruct (decide _) as [->|].
        * cbn [m_supply m_borrows m_res m_index]. split; [exact Hs|]. split; [exact Hb|]. split; [exact Hr|]. unfold is_u128. rewrite FDIV_val, U128MAX_val. lia.
        * apply H3.
      + intros b m Hbm. cbn in Hbm. rewrite Hxe. destruct (decide (b = a)) as [->|Ne].
        * rewrite lookup_insert in Hbm. injection Hbm as <-. split; [assumption|lia].
        * rewrite lookup_insert_ne in Hbm by auto. apply (H4 b m Hbm).
      + intros b w. rewrite Hxe. specialize (Hge b). pose proof (H5 b w) as (B1 & B2 & B3).
        change (debt_of (put_acc _ _ _) b w) with (debt_of s b w). split; [exact B1|]. split; [|exact B3].
        change (index_of (st_under _ _) b) with (index_of s b). lia.
      + intros b. rewrite acc_of_put. destruct (decide _); [apply (H6 a)|apply (H6 b)].
      + intros b Hbn. cbn in Hbn. apply lookup_insert_None in Hbn as [Hbn Hne]. rewrite Hxe.
        destruct (decide _); [congruence|]. apply H9, Hbn.
      + intros b. rewrite put_acc_sum, supply_put_acc. cbn [m_supply]. destruct (decide _) as [->|]; apply Hsum.
    - (* activate *) unfold activate_market in H. bstep H u0 E0. bstep H mk E1. injection H as <-.
      unfold get_market in E1. apply ok_or_ok in E1. eapply put_market_linv; eauto.
      destruct (li_mkt s (proj1 Hi) a mk E1) as [Ht _]. exact Ht.
    - (* rate model *) unfold update_rate_model in H. bstep H u0 E0. bstep H u1 E2. bstep H mk E1. injection H as <-.
      unfold get_market in E1. apply ok_or_ok in E1. eapply put_market_linv; eauto.
      destruct (li_mkt s (proj1 Hi) a mk E1) as [Ht _]. unfold market_typed in *; cbn. tauto.
    - (* update_market *) unfold update_market in H. bstep H u0 E0. bstep H mk E1. bstep H u1 E2. bstep H u2 E3. bstep H u3 E4. bstep H u4 E5.
      injection H as <-. unfold get_market in E1. apply ok_or_ok in E1. eapply put_market_linv; eauto.
      destruct (li_mkt s (proj1 Hi) a mk E1) as [Ht _].
      destruct Ht as (T1 & T2 & T3 & T4 & T5 & T6 & T7 & T8 & T9). destruct Hc as (C1 & C2 & C3 & C4 & C5 & C6 & C7 & C8).
      unfold market_typed; cbn. do 8 (split; [apply opt_default; assumption|]). assumption.
    - (* force_update *) unfold force_update_market in H. bstep H u0 E0. bstep H u1 E2. bstep H u2 E3. bstep H mk0 E1. injection H as <-.
      unfold get_market in E1. apply ok_or_ok in E1.
      apply (put_market_linv (st_under s (<[mk_pt mk := a]> (ln_under s))) a mk0); auto.
      destruct Hi as [[H1 H2 H3 H4 H5 H6 H7 H8 H9] Hs]. split; [constructor; assumption|exact Hs].
    - (* add_reward *) unfold add_reward in H. bstep H u0 E0. bstep H L E1. injection H as <-. apply linv_led; auto.
      eapply transfer_wf; [|apply (li_led s (proj1 Hi))|exact E1]. apply Hc.
    - unfold withdraw_missing in H. bstep H u0 E0. bstep H u1 E2. bstep H L E1. injection H as <-. apply linv_led; auto.
      eapply transfer_wf; [|apply (li_led s (proj1 Hi))|exact E1]. apply Hc.
    - (* speed *) unfold update_speed in H. bstep H u0 E0. bstep H u1 E1. bstep H s1 E2.
      assert (Hc1 : core_eq s s1).
      { destruct (_ =? _) in E2; [injection E2 as <-; apply core_refl|]. bstep E2 t E3. injection E2 as <-.
        eapply core_trans; [eapply upd_supply_index_core; eauto|apply core_rew]. }
      eapply linv_core; [|exact Hi]. eapply core_trans; [exact Hc1|].
      destruct (_ =? _) in H; [injection H as <-; apply core_refl|]. bstep H t E3. injection H as <-.
      eapply core_trans; [eapply upd_borrow_index_core; eauto|apply core_rew].
    - (* claim *) unfold claim_reward in H. bstep H s1 E1. apply collect_all_core in E1.
      assert (Hi1 : linv s1) by (eapply linv_core; eauto). unfold pay_reward in H. destruct (0 <? racc_of s1 w) eqn:Ez.
      + bstep H L E2. injection H as <-. apply (linv_core (st_led s1 L)); [eexists _, _, _, _, _; reflexivity|].
        apply linv_led; auto. eapply transfer_wf; [|apply (li_led s1 (proj1 Hi1))|exact E2]. lia.
      + injection H as <-. auto.
    - (* claim for *) unfold claim_reward_for in H. bstep H s1 E1. apply collect_reward_core in E1.
      assert (Hi1 : linv s1) by (eapply linv_core; eauto). unfold pay_reward in H. destruct (0 <? racc_of s1 w) eqn:Ez.
      + bstep H L E2. injection H as <-. apply (linv_core (st_led s1 L)); [eexists _, _, _, _, _; reflexivity|].
        apply linv_led; auto. eapply transfer_wf; [|apply (li_led s1 (proj1 Hi1))|exact E2]. lia.
      + injection H as <-. auto.
    - eapply mint_linv; eauto. apply Hc.
    - apply fst_res_ok in H as [x H]. unfold redeem in H. bstep H u0 E0. apply do_redeem_eff in H.
      eapply redeem_all_eff_linv; [|exact Hi|exact H]. apply sel_amt_ok. apply Hc.
    - apply fst_res_ok in H as [x H]. apply do_redeem_eff in H.
      eapply redeem_all_eff_linv; [|exact Hi|exact H]. apply sel_amt_ok. apply Hc.
    - apply fst_res_ok in H as [x H]. apply do_redeem_all_eff in H.
      eapply redeem_all_eff_linv; [|exact Hi|exact H]. apply sel_all_ok.
    - eapply borrow_linv; eauto. apply Hc.
    - eapply repay_linv; eauto. apply Hc.
    - eapply repay_all_linv; eauto.
    - unfold collateral_asset in H. bstep H u0 E0. bstep H d E1. bstep H u1 E2. eapply collateral_linv; eauto.
    - eapply collateral_linv; eauto.
    - eapply liquidate_linv; eauto. apply Hc.
    - eapply transfer_pt_linv; eauto. apply Hc.
    - (* add_reserves *) unfold add_reserves in H. bstep H u0 E0. bstep H mk E1. bstep H L E2. bstep H t E3. injection H as <-.
      destruct E3 as [-> E3]. destruct Hi as [Hi Hsum]. pose proof (li_acc s Hi a) as (Hs & Hb & Hr & Hx). pose proof (li_time s Hi a) as Ht.
      split.
      + apply linv0_acc; cbn; auto; [|unfold index_of, acc_of; cbn; lia]. apply linv0_led; auto.
        eapply transfer_wf; [|apply (li_led s Hi)|exact E2]. apply Hc.
      + intros b. rewrite put_acc_sum, supply_put_acc; cbn. change (voucher_sum (st_led s L) b) with (voucher_sum s b).
        change (supply_of (st_led s L) b) with (supply_of s b). rewrite Hsum. destruct (decide _) as [->|]; reflexivity.
    - (* reduce_reserves *) unfold reduce_reserves in H. bstep H u0 E0. bstep H mk E1. bstep H u1 E4. bstep H t E3. bstep H L E2. injection H as <-.
      destruct E3 as [-> E3]. destruct Hi as [Hi Hsum]. pose proof (li_acc s Hi a) as (Hs & Hb & Hr & Hx). pose proof (li_time s Hi a) as Ht.
      split.
      + apply linv0_acc; cbn; auto; [|unfold index_of, acc_of; cbn; lia]. apply linv0_led; auto.
        eapply transfer_wf; [|apply (li_led s Hi)|exact E2]. apply Hc.
      + intros b. rewrite put_acc_sum, supply_put_acc; cbn. change (voucher_sum (st_led s L) b) with (voucher_sum s b).
        change (supply_of (st_led s L) b) with (supply_of s b). rewrite Hsum. destruct (decide _) as [->|]; reflexivity.
    - (* reduce_incentive *) unfold reduce_incentive in H. bstep H u0 E0. bstep H u1 E1. bstep H mk E2. bstep H r E3. bstep H v E4.
      bstep H p E5. destruct p as [s1 x]. bstep H L E6. injection H as <-.
      unfold to_voucher in E4. apply ok_or_ok, f_checked_div_some in E4 as (_ & _ & E4).
      apply redeem_voucher_eff in E5. assert (Hx : is_u128 x) by (destruct E5 as (?&?&?&?&?&?&?&?&?&?&Hx&?); exact Hx).
      apply redeem_eff_linv in E5; auto; [|lia]. apply linv_led; auto.
      eapply transfer_wf; [|apply (li_led s1 (proj1 E5))|exact E6]. apply Hx.
    - unfold update_free in H. bstep H u0 E0. injection H as <-.
      destruct Hi as [[H1 H2 H3 H4 H5 H6 H7 H8 H9] Hs]. split; [constructor; assumption|exact Hs].
    - apply fst_res_ok in H as [x H]. unfold force_redeem, redeem in H. bstep H u0 E0. bstep H u1 E1. apply do_redeem_eff in H.
      eapply redeem_all_eff_linv; [|exact Hi|exact H]. apply sel_amt_ok. apply Hc.
    - apply fst_res_ok in H as [x H]. unfold force_redeem_all in H. bstep H u0 E0. apply do_redeem_all_eff in H.
      eapply redeem_all_eff_linv; [|exact Hi|exact H]. apply sel_all_ok.
    - bstep H s1 E1. bstep H b E2. injection H as <-. eapply accrue_linv; eauto.
  Qed.
End inv.
