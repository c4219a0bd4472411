(** * LoansProofs12: rewards when vouchers move, round trips of mint and redeem, supply rate, bricked markets. *)
From Verif Require Import Base MapSum Ledger AmmModel LoansModel LoansSpec LoansProofs LoansProofs2 LoansProofs3 LoansProofs4 LoansProofs5 LoansProofs6 LoansProofs8 LoansProofs9.

Lemma RSCALE_pos : 0 < RSCALE. Proof. rewrite RSCALE_val. lia. Qed.

Section rewards.
  Context (C : loans_cfg) (P : policy).
  Lemma upd_supply_frame s a s1 : upd_supply_index s a = Ok s1 ->
    (forall b, b <> a -> rew_of s1 b = rew_of s b) /\ ln_six s1 = ln_six s /\ ln_racc s1 = ln_racc s /\ ln_deps s1 = ln_deps s /\ ln_under s1 = ln_under s.
  Proof.
    unfold upd_supply_index. intros H. cbn zeta in H. destruct (_ =? 0); [injection H as <-; auto|]. bstep H i E. injection H as <-.
    split; [|cbn; auto]. intros b Hb. unfold rew_of, put_rew. cbn. rewrite lookup_insert_ne by auto. reflexivity.
  Qed.
  Lemma dist_supplier_frame s a w s1 : dist_supplier s a w = Ok s1 ->
    (forall b, rew_of s1 b = rew_of s b) /\ (forall b x, b <> a -> six_of s1 b x = six_of s b x) /\ ln_deps s1 = ln_deps s /\ ln_under s1 = ln_under s /\
    (forall x, vouchers s a w = 0 -> racc_of s1 x = racc_of s x).
  Proof.
    unfold dist_supplier. intros H. cbn zeta in H. bstep H d E1. bstep H x E2. bstep H t E3. injection H as <-. destruct E1 as [-> _], E3 as [-> _].
    split; [reflexivity|]. split. { intros b y Hb. unfold six_of. cbn. rewrite lookup_insert_ne by congruence. reflexivity. }
    split; [reflexivity|]. split; [reflexivity|]. intros y Hv. unfold reward_delta in E2. apply ok_or_ok, chk_some in E2 as [-> _].
    fold (vouchers s a w). rewrite Hv. rewrite Z.mul_0_l, Z.div_0_l by (pose proof RSCALE_pos; lia). rewrite Z.add_0_r.
    unfold racc_of at 1. cbn. destruct (Z.eq_dec y w) as [->|Ne]; [rewrite lookup_insert|rewrite lookup_insert_ne by auto]; reflexivity.
  Qed.
  Lemma transfer_pt_rewards s pt src dst amt s' u : 0 <= amt -> transfer_pt C s pt src dst amt = Ok s' -> ln_under s !! pt = Some u ->
    u <> pt -> src <> dst -> vouchers s pt src = 0 -> vouchers s pt dst = 0 ->
    (forall x, racc_of s' x = racc_of s x) /\
    (forall x, x <> src -> x <> dst -> pending_supply_reward s' u x = pending_supply_reward s u x) /\
    RSCALE * (pending_supply_reward s' u src + pending_supply_reward s' u dst - (pending_supply_reward s u src + pending_supply_reward s u dst))
      < amt * (six_of s u src - six_of s u dst) + 2 * RSCALE.
  Proof.
    intros Ha H Hu Hne Hsd V1 V2. unfold transfer_pt in H. bstep H red E0. bstep H u0 E1. bstep H s1 E2. bstep H s2 E3. bstep H s3 E4. bstep H u' E5.
    bstep H v E6. bstep H v' E7. injection H as <-.
    apply upd_supply_frame in E2 as (R1 & S1 & A1 & D1 & U1).
    apply dist_supplier_frame in E3 as (R2 & S2 & D2 & U2 & A2). apply dist_supplier_frame in E4 as (R3 & S3 & D3 & U3 & A3).
    assert (HV1 : vouchers s1 pt src = 0) by (unfold vouchers, dep_of in *; rewrite D1; exact V1).
    assert (HV2 : vouchers s2 pt dst = 0) by (unfold vouchers, dep_of in *; rewrite D2, D1; exact V2).
    unfold underlying in E5. apply ok_or_ok in E5. assert (u' = u) as -> by congruence.
    destruct E6 as [-> E6], E7 as [-> E7].
    set (d := dep_of s3 u src) in *. set (s4 := put_dep_or_remove s3 u src (mkDep (d_v d - amt) (d_col d))) in *.
    set (s5 := put_dep s4 u dst (mkDep (d_v (dep_of s4 u dst) + amt) (d_col (dep_of s4 u dst)))).
    assert (Hd3 : forall c x, dep_of s3 c x = dep_of s c x) by (intros; unfold dep_of; rewrite D3, D2, D1; reflexivity).
    assert (Hr4 : racc_of s5 = racc_of s3 /\ rew_of s5 = rew_of s3 /\ six_of s5 = six_of s3).
    { unfold s5, s4, put_dep_or_remove. destruct (_ =? 0); auto. }
    destruct Hr4 as (Ra & Rr & Rs).
    assert (Hrew : r_si (rew_of s5 u) = r_si (rew_of s u)) by (rewrite Rr, R3, R2, R1 by auto; reflexivity).
    assert (Hsix : forall x, six_of s5 u x = six_of s u x). { intros x. rewrite Rs, S3, S2 by auto. unfold six_of. rewrite S1. reflexivity. }
    assert (Hvo : forall x, vouchers s5 u x = vouchers s u x - (if decide (x = src) then amt else 0) + (if decide (x = dst) then amt else 0)).
    { assert (H4 : forall x, vouchers s4 u x = if decide (x = src) then vouchers s u src - amt else vouchers s u x).
      { intros x. unfold s4. rewrite vouchers_put_rm. cbn [d_v]. unfold d, vouchers. rewrite !Hd3. repeat destruct (decide _); try congruence; reflexivity. }
      intros x. unfold s5. rewrite vouchers_put. cbn [d_v]. fold (vouchers s4 u dst). rewrite !H4.
      destruct (decide ((u, x) = (u, dst))) as [Q|Q].
      - assert (x = dst) as -> by congruence. rewrite !(decide_False (P := dst = src)) by auto. rewrite decide_True by auto. lia.
      - rewrite (decide_False (P := x = dst)) by congruence. destruct (decide (x = src)) as [->|]; lia. }
    split. { intros x. rewrite Ra, A3, A2 by auto. unfold racc_of. rewrite A1. reflexivity. }
    unfold pending_supply_reward. rewrite Hrew. pose proof RSCALE_pos as HR. split.
    - intros x X1 X2. rewrite Hsix, Hvo, !decide_False by auto. f_equal. f_equal. lia.
    - rewrite !Hsix, !Hvo. rewrite !(decide_True (P := src = src)), !(decide_True (P := dst = dst)), !decide_False by auto.
      set (I := r_si (rew_of s u)). set (a1 := six_of s u src). set (a2 := six_of s u dst). set (v1 := vouchers s u src). set (v2 := vouchers s u dst).
      replace (v1 - amt + 0) with (v1 - amt) by lia. replace (v2 - 0 + amt) with (v2 + amt) by lia.
      pose proof (Z.mul_div_le ((v1 - amt) * (I - a1)) RSCALE HR). pose proof (Z.mul_div_le ((v2 + amt) * (I - a2)) RSCALE HR).
      pose proof (Z.mul_succ_div_gt (v1 * (I - a1)) RSCALE HR). pose proof (Z.mul_succ_div_gt (v2 * (I - a2)) RSCALE HR). lia.
  Qed.

  (** *** mint, then redeem everything at once *)
  Lemma round_trip s w a amt s1 s2 x : linv s -> 0 < ln_time s -> 0 <= backing C s a -> is_u128 amt -> w <> ln_acct C ->
    do_mint C P s w a amt = Ok s1 -> do_redeem_all C P s1 w a = Ok (s2, x) -> vouchers s a w = 0 -> 0 < supply_of s a ->
    (x - amt) * MIN_VALID_EXRATE < amt.
  Proof.
    intros Hi Ht Hbk Ha Hw H1 H2 Hv Hs.
    pose proof (mint_linv C P s w a amt s1 Ha Hi H1) as Hi1.
    pose proof H1 as H1'. apply do_mint_eff in H1 as (Ha0 & mk & s0 & R & E & X & Y & Z & r & v & L & _ & _ & _ & Hacc & Hr & Hv' & Hr0 & Hvp & HL & _ & _ & Hs1).
    pose proof (accrue_last C s a s0 Ht Hacc) as (T1 & T2 & T3).
    assert (Hl1 : m_last (acc_of s1 a) = m_last (acc_of s0 a)) by (rewrite Hs1, acc_of_put, decide_True by auto; reflexivity).
    assert (Ht1 : ln_time s1 = ln_time s0) by (rewrite Hs1; reflexivity).
    assert (Hac1 : accrue C s1 a = Ok s1).
    { unfold accrue. cbn zeta. rewrite Hl1, Ht1. replace (m_last (acc_of s0 a) =? 0) with false by lia. replace (ln_time s0 <=? m_last (acc_of s0 a)) with true by lia. reflexivity. }
    apply do_redeem_all_eff in H2. apply (redeem_full C P) in H2 as (t1 & t2 & r' & v2 & A1 & A2 & A3 & A4 & A5 & _); auto.
    assert (t1 = s1) as -> by congruence. destruct A2 as (R2 & E2 & X2 & Y2 & Z2 & ->).
    assert (v2 = v) as ->.
    { rewrite A4. change (vouchers (aux s1 R2 E2 X2 Y2 Z2) a w) with (vouchers s1 a w). rewrite Hs1. change (vouchers (put_acc ?t _ _) a w) with (vouchers t a w).
      rewrite vouchers_put, decide_True by auto. cbn [d_v]. rewrite (accrue_deps C s a s0 a w Hacc : dep_of s0 a w = dep_of s a w) || idtac.
      unfold vouchers at 1. rewrite (accrue_deps C s a s0 a w Hacc). fold (vouchers s a w). lia. }
    pose proof (accrue_grow C s a s0 (proj1 Hi) Hacc a) as [G1 G2].
    pose proof (exrate_rate C s0 a r ltac:(lia) Hr) as Er. pose proof (exrate_pos C s0 a r Hr) as Hrp. rewrite MIN_VALID_val in Hrp.
    assert (S1 : supply_of s1 a = supply_of s a + v).
    { rewrite Hs1. unfold supply_of at 1. rewrite acc_of_put, decide_True by auto. cbn [m_supply set_supply]. lia. }
    assert (B1 : backing C s1 a = backing C s0 a + amt).
    { pose proof (transfer_spec _ _ _ _ _ _ _ _ HL) as (HB & _ & _). rewrite Hs1. unfold backing, borrows_of, reserves_of. rewrite !acc_of_put, !decide_True by auto.
      cbn [m_borrows m_res set_supply]. change (ln_led (put_acc ?t _ _)) with (ln_led t). change (ln_led (put_dep ?t _ _ _)) with (ln_led t). cbn [ln_led st_led].
      rewrite HB. unfold at_. rewrite (bool_decide_true (a = a /\ ln_acct C = ln_acct C)) by auto. rewrite bool_decide_false by intuition congruence. lia. }
    assert (Hs1p : 0 < supply_of s1 a) by lia.
    pose proof (exrate_rate C s1 a r' Hs1p A3) as Er'. unfold rate_of in Er, Er'. rewrite S1, B1 in Er'.
    set (B := backing C s0 a) in *. rewrite G1 in Er. set (S := supply_of s a) in *. pose proof FDIV_pos as HF.
    assert (K1 : B * FDIV < (r + 1) * S). { rewrite Er. pose proof (Z.mul_succ_div_gt (B * FDIV) S Hs). lia. }
    assert (K2 : v * r <= amt * FDIV). { rewrite Hv', Z.mul_comm. apply Z.mul_div_le. lia. }
    assert (K3 : r' * (S + v) <= (B + amt) * FDIV). { rewrite Er', Z.mul_comm. apply Z.mul_div_le. lia. }
    assert (K4 : x * FDIV <= v * r'). { rewrite A5, Z.mul_comm. apply Z.mul_div_le. lia. }
    destruct Ha as [Ha _].
    assert (K5 : x * (S + v) <= v * (B + amt)).
    { apply (Z.mul_le_mono_pos_r _ _ FDIV HF). transitivity (v * r' * (S + v)); [nia|]. nia. }
    assert (K6 : (x - amt) * (S + v) <= v * B - amt * S) by lia.
    assert (Hb0 : 0 <= B) by lia.
    assert (K7 : (v * B - amt * S) * r <= amt * S).
    { apply (Z.mul_le_mono_pos_r _ _ FDIV HF).
      assert (v * r * (B * FDIV) <= amt * FDIV * ((r + 1) * S)). { apply Z.mul_le_mono_nonneg; nia. } nia. }
    assert (K8 : (x - amt) * r * (S + v) <= amt * S) by nia.
    assert (K9 : (x - amt) * r < amt). { apply (Z.mul_lt_mono_pos_r (S + v)); [lia|]. nia. }
    rewrite MIN_VALID_val. destruct (Z_le_gt_dec (x - amt) 0); nia.
  Qed.
End rewards.

(** *** the supply rate never exceeds the borrow rate *)
Lemma supply_rate_le b u f : is_u128 b -> is_permill u -> is_permill f -> 0 <= get_supply_rate b u f <= b.
Proof.
  intros Hb Hu Hf. unfold get_supply_rate. assert (Hs : is_permill (saturating_sub PMILL f)) by (unfold saturating_sub, is_permill in *; lia).
  rewrite (f_mul_permill b _ Hb Hs). pose proof PMILL_pos as HP.
  assert (H1 : 0 <= b * saturating_sub PMILL f / PMILL <= b).
  { destruct Hs, Hb. split; [apply Z.div_pos; nia|]. apply Z.div_le_upper_bound; [lia|]. rewrite (Z.mul_comm PMILL). apply Z.mul_le_mono_nonneg_l; lia. }
  set (y := b * saturating_sub PMILL f / PMILL) in *. assert (Hy : is_u128 y) by (unfold is_u128 in *; lia).
  rewrite (f_mul_permill y u Hy Hu). destruct Hu. split; [apply Z.div_pos; nia|]. etransitivity; [|apply H1]. apply Z.div_le_upper_bound; [lia|].
  rewrite (Z.mul_comm PMILL). apply Z.mul_le_mono_nonneg_l; lia.
Qed.

(** *** a market whose jump utilisation is zero and which nobody borrows from cannot accrue interest any more *)
Lemma zero_jump_bricks C s a mk base jump full : ln_mkts s !! a = Some mk -> mk_model mk = Jump base jump full 0 ->
  base <= jump -> is_u128 base -> is_u128 jump ->
  borrows_of s a = 0 -> 0 < m_last (acc_of s a) < ln_time s -> accrue C s a = Err "Overflow".
Proof.
  intros Hm Hj Hbj Hb1 Hb2 Hb Ht. unfold accrue. cbn zeta. replace (m_last (acc_of s a) =? 0) with false by lia.
  replace (ln_time s <=? m_last (acc_of s a)) with false by lia. unfold market_status, get_market. rewrite Hm. cbn [ok_or rbind].
  unfold calc_util. fold (borrows_of s a). rewrite Hb. cbn [Z.eqb rbind]. rewrite Hj. unfold get_borrow_rate. cbn [Z.leb Z.compare].
  destruct (checked_sub jump base) as [d|] eqn:E; cbn [obind]; [|reflexivity].
  unfold f_checked_div, f_of_permill. cbn. reflexivity.
Qed.
