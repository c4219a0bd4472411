(** * LoansProofs18: interest can be computed, repayments and withdrawals go through. *)
From Verif Require Import Base MapSum Ledger AmmModel AmmProofs5 LoansModel LoansSpec LoansSpec2 LoansProofs LoansProofs2 LoansProofs3 LoansProofs4 LoansProofs5 LoansProofs7 LoansProofs12 LoansProofs13 LoansProofs15 LoansProofs16 LoansProofs17.

Section live.
  Context (C : loans_cfg) (P : policy).

  (** *** every market has an accepted interest model *)
  Definition models_ok (s : loans) : Prop := forall a mk, ln_mkts s !! a = Some mk -> check_model (mk_model mk) = true.
  Lemma models_put s a mk : models_ok s -> check_model (mk_model mk) = true -> models_ok (put_market s a mk).
  Proof. intros H Hm b m Hb. cbn in Hb. destruct (Z.eq_dec b a) as [->|Hne]; [rewrite lookup_insert in Hb; injection Hb as <-; exact Hm|rewrite lookup_insert_ne in Hb by auto; eauto]. Qed.
  Lemma exec_models s c s' : models_ok s -> loans_exec C P s c = Ok s' -> models_ok s'.
  Proof.
    intros HM H.
    assert (changes_params c \/ ~ changes_params c) as [Hc|Hc] by (destruct c; cbn; auto); cycle 1.
    { apply (exec_params C P s c s' H) in Hc as (E & _). unfold models_ok. rewrite E. exact HM. }
    destruct c; cbn in Hc; try (destruct Hc; fail); cbn in H.
    - unfold add_market in H. bstep H u0 E0. bstep H u1 E1. bstep H u2 E2. bstep H u3 E3. bstep H u4 E4. bstep H u5 E5.
      bstep H u6 E6. bstep H u7 E7. bstep H u8 E8. bstep H u9 E9. injection H as <-. exact (models_put s a mk HM E3).
    - unfold activate_market in H. bstep H u0 E0. bstep H mk E1. injection H as <-. unfold get_market in E1. apply ok_or_ok in E1. apply (models_put s a _ HM). cbn. eapply HM; eauto.
    - unfold update_rate_model in H. bstep H u0 E0. bstep H u1 E2. bstep H mk E1. injection H as <-. exact (models_put s a (with_model mk x) HM E2).
    - unfold update_market in H. bstep H u0 E0. bstep H mk E1. bstep H u1 E2. bstep H u2 E3. bstep H u3 E4. bstep H u4 E5. injection H as <-. unfold get_market in E1. apply ok_or_ok in E1. apply (models_put s a _ HM). cbn. eapply HM; eauto.
    - unfold force_update_market in H. bstep H u0 E0. bstep H u1 E2. bstep H u2 E3. bstep H mk0 E1. injection H as <-. exact (models_put s a mk HM E2).
    - unfold update_free in H. bstep H u0 E0. injection H as <-. exact HM.
  Qed.
  Lemma reachable_models s : loans_reachable C P s -> models_ok s.
  Proof.
    intros (s0 & G & H). assert (models_ok s0) as H0. { destruct G as (G1 & _). intros a mk Hm. rewrite G1, lookup_empty in Hm. discriminate Hm. }
    induction H as [s|s1 s2 s3 H IH Hs]; [auto|]. specialize (IH G H0). destruct Hs as [c s' Hc Hs|L HL Hb|p Hp|t b' Ht Hb]; auto. eapply exec_models; eauto.
  Qed.

  (** *** the exchange rate is never below the initial one *)
  Definition floor_ok (s : loans) : Prop := forall a, 0 < supply_of s a -> MIN_EXRATE <= rate_of C s a.
  Lemma floor_grow s s' : grow C s s' -> floor_ok s -> floor_ok s'.
  Proof. intros G H a Hs. destruct (G a) as [E _]. rewrite E in Hs. transitivity (rate_of C s a); [apply H; auto|]. apply (grow_rate C s s' a G Hs). Qed.
  Lemma reachable_floor s : cfg_ok C -> loans_reachable C P s -> floor_ok s.
  Proof.
    intros HC (s0 & G & H). assert (floor_ok s0) as H0.
    { intros a Hs. pose proof G as (_ & _ & G3 & _). unfold supply_of, acc_of in Hs. rewrite G3, lookup_empty in Hs. cbn in Hs. lia. }
    pose proof G as G'. induction H as [s|s1 s2 s3 H IH Hs]; [auto|]. specialize (IH G H0 G').
    assert (loans_reachable C P s2) as R by (exists s1; auto). intros a Hp. pose proof (li_acc s2 (proj1 (reachable_linv C P s2 R)) a) as (Hsu & _).
    destruct (step_rok C P s2 s3 HC (reachable_linv C P s2 R) Hs a (reachable_backing C P s2 a HC R)) as (_ & Q1 & Q2).
    destruct (Z.eq_dec (supply_of s2 a) 0) as [E|E]; [auto|]. unfold is_u128 in Hsu. transitivity (rate_of C s2 a); [apply IH; lia|]. apply Q1; lia.
  Qed.

  (** *** interest *)
  Lemma util_ok c b r : 0 <= b -> 0 <= c -> 0 <= c + b - r -> 0 <= r -> c + b <= U128MAX -> exists u, calc_util c b r = Ok u /\ is_permill u.
  Proof.
    intros Hb Hc H0 Hr Hm. unfold calc_util. destruct (b =? 0) eqn:E; [exists 0; split; [auto|split; [lia|]]; rewrite PMILL_val; lia|].
    unfold checked_add. rewrite chk_ok by lia. cbn [obind]. unfold checked_sub. rewrite chk_ok by lia. cbn. eexists. split; [reflexivity|].
    unfold p_from_rational. pose proof PMILL_val. destruct ((c + b - r =? 0) || (c + b - r <? b)) eqn:Eo; [split; lia|]. apply orb_false_elim in Eo as [E1 E2].
    split; [apply Z.div_pos; [nia|lia]|]. apply Z.div_le_upper_bound; [lia|nia].
  Qed.
  Lemma rate_ok m u : check_model m = true -> model_typed m -> usable_model m -> is_permill u -> exists r, get_borrow_rate m u = Some r /\ 0 <= r <= 2 * FDIV.
  Proof.
    intros Hk Ht Hu Hp. pose proof FDIV_val. destruct m as [base jump full ju|base].
    - destruct (jump_props base jump full ju Hk) as (r & H1 & _ & _ & H4 & _); try apply Ht; auto. exists (r u). split; [apply H1, Hp|].
      specialize (H4 u Hp). destruct (check_jump _ _ _ _ Hk) as (_ & _ & H5 & _). change MAX_FULL with (5 * 10 ^ 17) in H5. destruct Ht as [[Hb _] _]. lia.
    - destruct (curve_props base Hk) as (r & H1 & _ & _ & _ & H4); try apply Ht. exists (r u). split; [apply H1, Hp|]. specialize (H4 u Hp).
      cbn in Hk. change MAX_CURVE_BASE with (10 ^ 17) in Hk. destruct Ht as [Hb _]. lia.
  Qed.
  Lemma interest_some rate amt dt : 0 <= rate <= 2 * FDIV -> 0 <= amt -> 0 <= dt -> amt + 2 * amt * dt <= U128MAX -> dt <> 0 ->
    exists i, accrued_interest rate amt dt = Some i /\ 0 <= i <= 2 * amt * dt / 31536000.
  Proof.
    intros Hr Ha Hd Hm Hne. pose proof FDIV_pos. pose proof SPY_val as HS. assert (0 <= rate * amt / FDIV <= 2 * amt) as Hx.
    { split; [apply Z.div_pos; nia|]. apply Z.div_le_upper_bound; nia. }
    unfold accrued_interest, f_checked_mul_int. rewrite chk_ok by nia. cbn [obind]. unfold checked_mul. rewrite chk_ok by nia. cbn [obind]. unfold checked_div.
    replace (SPY =? 0) with false by lia. eexists. split; [reflexivity|]. rewrite HS. split; [apply Z.div_pos; nia|]. apply Z.div_le_mono; nia.
  Qed.
  Lemma index_some rate ix dt : 0 <= rate <= 2 * FDIV -> 0 <= ix -> 0 <= dt -> ix + 2 * ix * dt <= U128MAX -> dt <> 0 ->
    exists d, increment_index rate ix dt = Some d /\ 0 <= d <= 2 * ix * dt.
  Proof.
    intros Hr Ha Hd Hm Hne. pose proof FDIV_pos. pose proof SPY_val as HS. assert (0 <= rate * ix / FDIV <= 2 * ix) as Hx.
    { split; [apply Z.div_pos; nia|]. apply Z.div_le_upper_bound; nia. }
    unfold increment_index, f_checked_mul. rewrite chk_ok by nia. cbn [obind]. rewrite Z.mul_assoc, Z.div_mul by lia. rewrite chk_ok by nia. cbn [obind]. unfold f_checked_div.
    replace (SPY * FDIV =? 0) with false by nia. rewrite Z.div_mul_cancel_r by lia. set (y := rate * ix / FDIV * dt) in *. assert (0 <= y <= 2 * ix * dt) as Hy by (subst y; nia).
    assert (0 <= y / SPY <= y) as Hz. { split; [apply Z.div_pos; lia|]. apply Z.div_le_upper_bound; nia. } rewrite chk_ok by lia. eexists. split; [reflexivity|lia].
  Qed.
  Lemma accrue_prog s a mk : cfg_ok C -> loans_reachable C P s -> ln_mkts s !! a = Some mk -> usable_model (mk_model mk) -> headroom C s a -> exists s1, accrue C s a = Ok s1.
  Proof.
    intros HC R Hm Hu (H1 & H2 & H3). pose proof (reachable_linv C P s R) as [Hi _]. destruct (li_acc s Hi a) as ((S0 & S1) & (B0 & B1) & (V0 & V1) & (X0 & X1)).
    pose proof (reachable_backing C P s a HC R) as HB. pose proof (li_led s Hi) as [HW _]. specialize (HW a (ln_acct C)) as HW0. destruct (li_mkt s Hi a mk Hm) as [HT HX].
    unfold accrue. unfold interest_time in *. destruct (m_last (acc_of s a) =? 0) eqn:E0; [eauto|]. destruct (ln_time s <=? m_last (acc_of s a)) eqn:E1; [eauto|].
    set (dt := ln_time s - m_last (acc_of s a)) in *. assert (0 < dt) as Hdt by (subst dt; lia). cbn zeta in H1, H2, H3.
    unfold market_status. unfold get_market. rewrite Hm. cbn [ok_or rbind]. fold (borrows_of s a) (reserves_of s a) (supply_of s a) (index_of s a).
    assert (0 <= 2 * borrows_of s a * dt) as Hp by nia. unfold backing in *.
    destruct (util_ok (cash C s a) (borrows_of s a) (reserves_of s a)) as (u & -> & Hup); [auto|apply HW0|exact HB|auto|unfold cash; lia|]. cbn [rbind].
    destruct (rate_ok (mk_model mk) u) as (r & -> & Hr); [eapply reachable_models; eauto|apply HT|auto|auto|]. cbn [ok_or rbind].
    replace (m_last (acc_of s a) <? ln_time s) with true by lia. fold dt.
    destruct (interest_some r (borrows_of s a) dt) as (i & -> & Hii); try lia. cbn [ok_or rbind].
    destruct (index_some r (index_of s a) dt) as (d & -> & Hdd); try lia.
    assert (2 * borrows_of s a * dt / 31536000 <= 2 * borrows_of s a * dt) as Hq by (apply Z.div_le_upper_bound; lia).
    assert (0 <= p_mul_floor (mk_rf mk) i <= i) as Hf. { assert (is_permill (mk_rf mk)) as [F0 F1] by apply HT. pose proof PMILL_val. unfold p_mul_floor. split; [apply Z.div_pos; nia|]. apply Z.div_le_upper_bound; nia. }
    unfold checked_add at 1. rewrite chk_ok by lia. cbn [ok_or rbind]. unfold checked_add at 1. rewrite chk_ok by lia. cbn [ok_or rbind obind]. unfold checked_add at 1. rewrite chk_ok by lia. cbn [ok_or rbind].
    assert (exists ex, calc_exrate (supply_of s a) (cash C s a) (i + borrows_of s a) (p_mul_floor (mk_rf mk) i + reserves_of s a) = Ok ex) as [ex ->]; [|cbn [rbind]; eauto].
    unfold calc_exrate. destruct (supply_of s a =? 0) eqn:Es; [eauto|]. unfold cash in *. unfold checked_add. rewrite chk_ok by lia. cbn [obind]. unfold checked_sub. rewrite chk_ok by lia. cbn [ok_or rbind].
    destruct H3 as [H3|H3]; [lia|]. pose proof (reachable_floor s HC R a ltac:(lia)) as HF. unfold rate_of, backing in HF. pose proof FDIV_val as HFD.
    set (n := bal (ln_led s) a (ln_acct C) + (i + borrows_of s a) - (p_mul_floor (mk_rf mk) i + reserves_of s a)).
    assert (n * FDIV / supply_of s a < MAX_EXRATE) as Hlt. { rewrite MAX_EXRATE_val. apply Z.div_lt_upper_bound; [lia|]. subst n. nia. }
    assert (MIN_VALID_EXRATE <= n * FDIV / supply_of s a) as Hge.
    { etransitivity; [|etransitivity; [exact HF|]]. { rewrite MIN_VALID_val, MIN_EXRATE_val. lia. } apply Z.div_le_mono; [lia|]. subst n. nia. }
    rewrite MIN_VALID_val in Hge. rewrite MAX_EXRATE_val in Hlt. assert (10 ^ 18 <= U128MAX) as HU by (apply Z.leb_le; vm_compute; reflexivity).
    unfold f_checked_from_rational. rewrite Es. rewrite chk_ok by lia. cbn [ok_or rbind]. rewrite MIN_VALID_val, MAX_EXRATE_val.
    replace ((15 * 10 ^ 15 <=? n * FDIV / supply_of s a) && (n * FDIV / supply_of s a <? 10 ^ 18)) with true by lia. cbn. eauto.
  Qed.

  (** *** rewards *)
  Lemma balance_prog s a w : linv s -> debt_now s a w <= U128MAX -> borrow_balance s w a = Ok (debt_now s a w).
  Proof.
    intros [Hi _] H. destruct (li_debt s Hi a w) as ((D0 & D1) & (I0 & I1) & I2). destruct (li_acc s Hi a) as (_ & _ & _ & (X0 & X1)). pose proof FDIV_pos as HF.
    unfold borrow_balance, debt_now in *. cbn zeta in *. fold (index_of s a). destruct (b_i (debt_of s a w) =? 0) eqn:E; [rewrite orb_true_r; reflexivity|]. rewrite orb_false_r.
    assert (0 <= index_of s a * FDIV / b_i (debt_of s a w) <= index_of s a) as Hq. { split; [apply Z.div_pos; nia|]. apply Z.div_le_upper_bound; nia. }
    destruct (b_p (debt_of s a w) =? 0) eqn:Ep.
    - replace (b_p (debt_of s a w)) with 0 by lia. rewrite Z.mul_0_r, Z.div_0_l by lia. reflexivity.
    - unfold f_checked_div. rewrite E. rewrite chk_ok by lia. cbn [obind]. unfold f_checked_mul_int. rewrite chk_ok; [reflexivity|]. split; [apply Z.div_pos; nia|exact H].
  Qed.
  Lemma base_prog s a x : is_u128 (index_of s a) -> FDIV <= index_of s a -> 0 <= x <= U128MAX -> base_borrow (index_of s a) x = Some (at_index_one s a x) /\ 0 <= at_index_one s a x <= x.
  Proof.
    intros [_ X1] HX Hx. pose proof FDIV_val as HF. unfold base_borrow, f_reciprocal, f_checked_div. replace (index_of s a =? 0) with false by lia.
    assert (0 <= FDIV * FDIV / index_of s a <= FDIV) as Hq. { split; [apply Z.div_pos; nia|]. apply Z.div_le_upper_bound; nia. }
    assert (10 ^ 18 <= U128MAX) as HU by (apply Z.leb_le; vm_compute; reflexivity). rewrite chk_ok by lia. cbn [obind]. unfold f_checked_mul_int, at_index_one. replace (10 ^ 36) with (FDIV * FDIV) by (rewrite HF; reflexivity). rewrite <- HF.
    assert (0 <= FDIV * FDIV / index_of s a * x / FDIV <= x) as Hy. { split; [apply Z.div_pos; nia|]. apply Z.div_le_upper_bound; nia. }
    rewrite chk_ok by lia. split; [reflexivity|exact Hy].
  Qed.
  Lemma upd_s_prog s a : linv s -> rinv s -> supply_index_now s a <= U128MAX -> exists s', upd_supply_index s a = Ok s'.
  Proof.
    intros Hi R H. destruct (ri_block s R a) as [Hb _]. destruct (ri_speed s R a) as [[S0 S1] _]. pose proof (ri_six s R a 0) as [Q1 Q2]. destruct (li_acc s (proj1 Hi) a) as ((U0 & U1) & _).
    unfold upd_supply_index. cbn zeta. unfold saturating_sub. destruct (Z.max 0 _ =? 0) eqn:E0; [eauto|]. rewrite Z.max_r by lia. unfold supply_index_now in H. cbn zeta in H.
    destruct (r_ss (rew_of s a) =? 0) eqn:Es; [cbn [rbind]; eauto|]. cbn [orb] in H. unfold delta_index. fold (supply_of s a).
    destruct (supply_of s a =? 0) eqn:Eu.
    - cbn [rbind]. unfold checked_add. rewrite chk_ok by lia. cbn. eauto.
    - replace (10 ^ 12) with RSCALE in H by (rewrite RSCALE_val; reflexivity). pose proof RSCALE_pos.
      assert (0 <= (ln_block s - r_sb (rew_of s a)) * r_ss (rew_of s a) * RSCALE / supply_of s a) by (apply Z.div_pos; [apply Z.mul_nonneg_nonneg; [apply Z.mul_nonneg_nonneg|]; lia|lia]).
      rewrite chk_ok by lia. cbn [ok_or rbind]. unfold checked_add. rewrite chk_ok by lia. cbn. eauto.
  Qed.
  Lemma upd_b_prog s a : linv s -> rinv s -> FDIV <= index_of s a -> borrow_index_now s a <= U128MAX -> exists s', upd_borrow_index s a = Ok s'.
  Proof.
    intros Hi R HX H. destruct (ri_block s R a) as [_ Hb]. destruct (ri_speed s R a) as [_ [S0 S1]]. pose proof (ri_bix s R a 0) as [Q1 Q2]. destruct (li_acc s (proj1 Hi) a) as (_ & HU & _ & HI).
    unfold upd_borrow_index. cbn zeta. unfold saturating_sub. destruct (Z.max 0 _ =? 0) eqn:E0; [eauto|]. rewrite Z.max_r by lia. unfold borrow_index_now in H. cbn zeta in H.
    destruct (r_bs (rew_of s a) =? 0) eqn:Es; [cbn [rbind]; eauto|]. cbn [orb] in H. fold (index_of s a) (borrows_of s a). destruct (base_prog s a (borrows_of s a) HI HX HU) as [-> Hy]. cbn [ok_or rbind].
    unfold delta_index. destruct (at_index_one s a (borrows_of s a) =? 0) eqn:Eu.
    - cbn [rbind]. unfold checked_add. rewrite chk_ok by lia. cbn. eauto.
    - replace (10 ^ 12) with RSCALE in H by (rewrite RSCALE_val; reflexivity). pose proof RSCALE_pos.
      assert (0 <= (ln_block s - r_bb (rew_of s a)) * r_bs (rew_of s a) * RSCALE / at_index_one s a (borrows_of s a)) by (apply Z.div_pos; [apply Z.mul_nonneg_nonneg; [apply Z.mul_nonneg_nonneg|]; lia|lia]).
      rewrite chk_ok by lia. cbn [ok_or rbind]. unfold checked_add. rewrite chk_ok by lia. cbn. eauto.
  Qed.
  Lemma earned_parts s a w : linv s -> rinv s -> FDIV <= index_of s a -> debt_now s a w <= U128MAX ->
    0 <= vouchers s a w * (supply_index_now s a - six_of s a w) / RSCALE /\ 0 <= at_index_one s a (debt_now s a w) * (borrow_index_now s a - bix_of s a w) / RSCALE /\
    r_si (rew_of s a) <= supply_index_now s a /\ r_bi (rew_of s a) <= borrow_index_now s a.
  Proof.
    intros Hi R HX HD. destruct (ri_block s R a) as [Hb1 Hb]. destruct (ri_speed s R a) as [[S0 S1] [S2 S3]]. pose proof (ri_bix s R a w) as [Q1 Q2]. pose proof (ri_six s R a w) as [Q3 Q4].
    destruct (li_acc s (proj1 Hi) a) as ((U0 & _) & HU & _ & HI). pose proof (li_dep s (proj1 Hi) a w) as [V0 _]. pose proof RSCALE_pos as HR.
    assert (r_si (rew_of s a) <= supply_index_now s a) as A1.
    { unfold supply_index_now. cbn zeta. destruct (_ || _) eqn:E; [lia|]. apply orb_false_elim in E as [E1 E2]. assert (0 <= (ln_block s - r_sb (rew_of s a)) * r_ss (rew_of s a) * 10 ^ 12 / supply_of s a) by (apply Z.div_pos; [apply Z.mul_nonneg_nonneg; [apply Z.mul_nonneg_nonneg|]; lia|lia]). lia. }
    assert (r_bi (rew_of s a) <= borrow_index_now s a) as A2.
    { unfold borrow_index_now. cbn zeta. destruct (_ || _) eqn:E; [lia|]. apply orb_false_elim in E as [E1 E2]. destruct (base_prog s a (borrows_of s a) HI HX HU) as [_ Hy].
      assert (0 <= (ln_block s - r_bb (rew_of s a)) * r_bs (rew_of s a) * 10 ^ 12 / at_index_one s a (borrows_of s a)) by (apply Z.div_pos; [apply Z.mul_nonneg_nonneg; [apply Z.mul_nonneg_nonneg|]; lia|lia]). lia. }
    assert (0 <= debt_now s a w) as D0. { unfold debt_now. cbn zeta. destruct (_ =? 0) eqn:E; [lia|]. destruct (li_debt s (proj1 Hi) a w) as ((D0 & D1) & (I0 & I1) & I2). pose proof FDIV_pos. destruct HI as [HI0 _]. apply Z.div_pos; [|lia]. apply Z.mul_nonneg_nonneg; [apply Z.div_pos; nia|lia]. }
    destruct (base_prog s a (debt_now s a w) HI HX (conj D0 HD)) as [_ Hy]. split; [apply Z.div_pos; [|lia]; apply Z.mul_nonneg_nonneg; lia|]. split; [apply Z.div_pos; [|lia]; apply Z.mul_nonneg_nonneg; lia|]. auto.
  Qed.
  Lemma dist_b_prog0 s a w : linv s -> rinv s -> FDIV <= index_of s a -> debt_now s a w <= U128MAX -> borrow_index_now s a <= U128MAX ->
    racc_of s w + at_index_one s a (debt_now s a w) * (borrow_index_now s a - bix_of s a w) / RSCALE <= U128MAX ->
    exists s1 s2, upd_borrow_index s a = Ok s1 /\ dist_borrower s1 a w = Ok s2.
  Proof.
    intros Hi R HX HD F2 F3. destruct (earned_parts s a w Hi R HX HD) as (P1 & P2 & P3 & P4). destruct (upd_b_prog s a Hi R HX F2) as [s1 E]. exists s1.
    destruct (upd_b_now s a s1 Hi R ltac:(pose proof FDIV_pos; lia) E) as (B1 & B2 & B3 & B4 & B5 & B6 & B7 & (W & HW)).
    unfold dist_borrower. cbn zeta. rewrite B1. assert (bix_of s1 a w = bix_of s a w) as -> by (rewrite HW; reflexivity). assert (racc_of s1 w = racc_of s w) as -> by (rewrite HW; reflexivity).
    assert (borrow_balance s1 w a = Ok (debt_now s a w)) as ->. { rewrite HW. change (borrow_balance (st_rew s W) w a) with (borrow_balance s w a). apply balance_prog; auto. }
    assert (index_of s1 a = index_of s a) as Eix by (rewrite HW; reflexivity). fold (index_of s1 a). rewrite Eix. destruct (li_acc s (proj1 Hi) a) as (_ & _ & _ & HI).
    assert (0 <= debt_now s a w) as D0. { unfold debt_now. cbn zeta. destruct (_ =? 0) eqn:Eb; [lia|]. destruct (li_debt s (proj1 Hi) a w) as ((D0 & D1) & (I0 & I1) & I2). pose proof FDIV_pos. destruct HI as [HI0 _]. apply Z.div_pos; [|lia]. apply Z.mul_nonneg_nonneg; [apply Z.div_pos; nia|lia]. }
    destruct (base_prog s a (debt_now s a w) HI HX (conj D0 HD)) as [Ebb Hy]. pose proof (ri_bix s R a w) as [Q1 Q2]. pose proof (ri_racc s R w) as [K0 K1].
    unfold checked_sub. rewrite chk_ok by lia. cbn [ok_or rbind]. rewrite Ebb. cbn [ok_or rbind]. unfold reward_delta. rewrite chk_ok by lia. cbn [ok_or rbind]. unfold checked_add. rewrite chk_ok by lia. cbn. eauto.
  Qed.
  Lemma dist_b_prog s a w : linv s -> rinv s -> FDIV <= index_of s a -> debt_now s a w <= U128MAX -> rewards_fit s a w ->
    exists s1 s2, upd_borrow_index s a = Ok s1 /\ dist_borrower s1 a w = Ok s2.
  Proof.
    intros Hi R HX HD (F1 & F2 & F3). apply dist_b_prog0; auto. destruct (earned_parts s a w Hi R HX HD) as (P1 & P2 & _). unfold claimable_in, earned_in in F3. rewrite <- RSCALE_val in F3. lia.
  Qed.
  Lemma dist_s_prog s a w : linv s -> rinv s -> FDIV <= index_of s a -> debt_now s a w <= U128MAX -> rewards_fit s a w ->
    exists s1 s2, upd_supply_index s a = Ok s1 /\ dist_supplier s1 a w = Ok s2.
  Proof.
    intros Hi R HX HD (F1 & F2 & F3). destruct (earned_parts s a w Hi R HX HD) as (P1 & P2 & P3 & P4). destruct (upd_s_prog s a Hi R F1) as [s1 E]. exists s1.
    destruct (upd_s_now s a s1 Hi R E) as (B1 & B2 & B3 & B4 & B5 & B6 & B7 & (W & HW)).
    unfold dist_supplier. cbn zeta. rewrite B1. assert (six_of s1 a w = six_of s a w) as -> by (rewrite HW; reflexivity). assert (racc_of s1 w = racc_of s w) as -> by (rewrite HW; reflexivity).
    assert (d_v (dep_of s1 a w) = vouchers s a w) as -> by (rewrite HW; reflexivity). pose proof (ri_six s R a w) as [Q1 Q2]. pose proof (ri_racc s R w) as [K0 K1]. unfold claimable_in, earned_in in F3. rewrite <- RSCALE_val in F3.
    unfold checked_sub. rewrite chk_ok by lia. cbn [ok_or rbind]. unfold reward_delta. rewrite chk_ok by lia. cbn [ok_or rbind]. unfold checked_add. rewrite chk_ok by lia. cbn. eauto.
  Qed.

  (** *** repaying *)
  Lemma active_prog s a mk : ln_mkts s !! a = Some mk -> mk_state mk = Active -> ensure_active s a = Ok mk.
  Proof. intros H HA. unfold ensure_active. rewrite H. unfold is_active. rewrite bool_decide_true by auto. reflexivity. Qed.
  Lemma accrue_rinv s a s1 : linv s -> rinv s -> accrue C s a = Ok s1 -> rinv s1.
  Proof. intros Hi R H. apply accrue_full in H as (X & -> & _); [|apply Hi]. eapply rinv_same; [|exact R]. repeat split. Qed.
  Lemma accrue_mk s a s1 b mk : ln_mkts s !! b = Some mk -> accrue C s a = Ok s1 -> ln_mkts s1 !! b = Some mk.
  Proof. intros H E. apply accrue_mkts in E as [X ->]. exact H. Qed.
  Lemma repay_amount_prog s w a amt mk : linv s -> rinv s -> ln_mkts s !! a = Some mk -> lenient P -> 0 <= amt <= debt_now s a w -> debt_now s a w <= U128MAX -> amt <= bal (ln_led s) a w ->
    rewards_fit s a w -> exists s', repay_with_amount C P s w a (debt_now s a w) amt = Ok s'.
  Proof.
    intros Hi R Hm LP Ha HD Hb HF. destruct (li_mkt s (proj1 Hi) a mk Hm) as [_ HX]. destruct (dist_b_prog s a w Hi R HX HD HF) as (s1 & s2 & E1 & E2).
    unfold repay_with_amount. replace (amt <=? debt_now s a w) with true by lia. cbn [ensure rbind]. rewrite E1. cbn [rbind]. rewrite E2. cbn [rbind].
    assert (ln_led s2 = ln_led s) as HL. { apply upd_borrow_index_core in E1 as (?&?&?&?&?&->). apply dist_borrower_core in E2 as (?&?&?&?&?&->). reflexivity. }
    rewrite HL. destruct (transfer_prog P (ln_led s) a w (ln_acct C) amt false LP) as [L' ->]; [lia|lia|]. cbn [rbind]. unfold checked_sub. rewrite chk_ok by lia. cbn. eauto.
  Qed.
  Lemma repay_prog s s1 w a amt mk : linv s -> rinv s -> ln_mkts s !! a = Some mk -> mk_state mk = Active -> lenient P -> accrue C s a = Ok s1 ->
    0 <= amt <= debt_now s1 a w -> debt_now s1 a w <= U128MAX -> amt <= bal (ln_led s) a w -> rewards_fit s1 a w -> exists s', do_repay C P s w a amt = Ok s'.
  Proof.
    intros Hi R Hm HA LP E Ha HD Hb HF. pose proof (accrue_linv C _ _ _ Hi E) as Hi1. pose proof (accrue_rinv _ _ _ Hi R E) as R1. unfold do_repay. rewrite (active_prog s a mk Hm HA). cbn [rbind]. rewrite E. cbn [rbind].
    rewrite (balance_prog s1 a w Hi1 HD). cbn [rbind]. eapply repay_amount_prog; eauto; [eapply accrue_mk; eauto|]. apply accrue_mkts in E as [X ->]. exact Hb.
  Qed.
  Lemma accrue_again s a s1 : linv s -> 0 < ln_time s -> accrue C s a = Ok s1 -> accrue C s1 a = Ok s1.
  Proof.
    intros Hi Ht E. pose proof (accrue_full C s a s1 (proj1 Hi) E) as (X & Hs & (_ & _ & _ & _ & _ & Hl) & _). assert (ln_time s1 = ln_time s) as Hts by (rewrite Hs; reflexivity).
    pose proof (li_time s (proj1 Hi) a). unfold accrue. rewrite Hts, Hl. destruct (m_last (acc_of s a) =? 0) eqn:E0.
    - replace (ln_time s =? 0) with false by lia. replace (ln_time s <=? ln_time s) with true by lia. reflexivity.
    - replace (Z.max (m_last (acc_of s a)) (ln_time s) =? 0) with false by lia. replace (ln_time s <=? Z.max (m_last (acc_of s a)) (ln_time s)) with true by lia. reflexivity.
  Qed.
  Lemma repay_all_prog s s1 w a mk : linv s -> rinv s -> 0 < ln_time s -> ln_mkts s !! a = Some mk -> mk_state mk = Active -> lenient P -> accrue C s a = Ok s1 ->
    debt_now s1 a w <= U128MAX -> debt_now s1 a w <= bal (ln_led s) a w -> rewards_fit s1 a w -> exists s', repay_all C P s w a = Ok s'.
  Proof.
    intros Hi R Ht Hm HA LP E HD Hb HF. pose proof (accrue_linv C _ _ _ Hi E) as Hi1. pose proof (accrue_rinv _ _ _ Hi R E) as R1. unfold repay_all. rewrite (active_prog s a mk Hm HA). cbn [rbind]. rewrite E. cbn [rbind].
    rewrite (balance_prog s1 a w Hi1 HD). cbn [rbind]. eapply (repay_prog s1 s1); eauto; [eapply accrue_mk; eauto|exact (accrue_again s a s1 Hi Ht E)| |].
    - split; [|lia]. destruct (li_debt s1 (proj1 Hi1) a w) as ((D0 & D1) & (I0 & I1) & I2). pose proof FDIV_pos. destruct (li_acc s1 (proj1 Hi1) a) as (_ & _ & _ & (HI0 & _)).
      unfold debt_now. cbn zeta. destruct (_ =? 0) eqn:Eb; [lia|]. apply Z.div_pos; [|lia]. apply Z.mul_nonneg_nonneg; [apply Z.div_pos; nia|lia].
    - apply accrue_mkts in E as [X ->]. exact Hb.
  Qed.

  (** *** withdrawing what is not used as collateral *)
  Lemma exrate_prog s a : linv s -> floor_ok s -> 0 < supply_of s a -> 0 <= backing C s a < supply_of s a -> bal (ln_led s) a (ln_acct C) + borrows_of s a <= U128MAX ->
    exrate C s a = Ok (rate_of C s a) /\ 0 < rate_of C s a < FDIV.
  Proof.
    intros Hi HF HS HB HM. specialize (HF a HS). rewrite MIN_EXRATE_val in HF. pose proof FDIV_val as HFD. destruct (li_acc s (proj1 Hi) a) as (_ & (B0 & _) & (V0 & _) & _). pose proof (li_led s (proj1 Hi)) as [HW _]. specialize (HW a (ln_acct C)).
    assert (rate_of C s a < FDIV) as Hlt. { unfold rate_of. apply Z.div_lt_upper_bound; [lia|]. nia. }
    assert (10 ^ 18 <= U128MAX) as HU by (apply Z.leb_le; vm_compute; reflexivity).
    split; [|lia]. unfold exrate, calc_exrate. fold (supply_of s a) (borrows_of s a) (reserves_of s a). replace (supply_of s a =? 0) with false by lia. unfold cash. unfold backing in HB.
    unfold checked_add. rewrite chk_ok by lia. cbn [obind]. unfold checked_sub. rewrite chk_ok by lia. cbn [ok_or rbind]. unfold f_checked_from_rational. replace (supply_of s a =? 0) with false by lia.
    fold (backing C s a). change (backing C s a * FDIV / supply_of s a) with (rate_of C s a). rewrite chk_ok by lia. cbn [ok_or rbind]. rewrite MIN_VALID_val, MAX_EXRATE_val.
    replace ((15 * 10 ^ 15 <=? rate_of C s a) && (rate_of C s a <? 10 ^ 18)) with true by lia. reflexivity.
  Qed.
  Lemma earned_prog s w a r : linv s -> earnings_fit s a w r -> 0 <= r <= U128MAX -> exists s', update_earned s w a r = Ok s'.
  Proof.
    intros Hi (H1 & H2 & H3) Hr. unfold update_earned. cbn zeta. fold (vouchers s a w). pose proof (li_dep s (proj1 Hi) a w) as [V0 _]. destruct (e_rate (earn_of s a w) <=? r) eqn:E; [|cbn; eauto].
    unfold checked_sub. rewrite chk_ok by lia. cbn [obind]. unfold f_checked_mul_int. rewrite FDIV_val. assert (0 <= (r - e_rate (earn_of s a w)) * vouchers s a w / 10 ^ 18) by (apply Z.div_pos; nia).
    rewrite chk_ok by lia. cbn [obind]. unfold checked_add. rewrite chk_ok by lia. cbn. eauto.
  Qed.
  Lemma voucher_le_supply s a w : linv s -> vouchers s a w <= supply_of s a.
  Proof.
    intros [Hi HV]. rewrite <- HV. unfold voucher_sum, vouchers, dep_of. destruct (ln_deps s !! (a, w)) as [d|] eqn:E; cbn.
    - pose proof (msum_ge_elem (fun k d => if bool_decide (k.1 = a) then d_v d else 0) (ln_deps s) (a, w) d) as H. cbn in H. rewrite bool_decide_true in H by auto. apply H; [|exact E].
      intros [b x] d' Hd. pose proof (li_dep s Hi b x) as [H0 _]. unfold vouchers, dep_of in H0. rewrite Hd in H0. cbn in H0. cbn. case_bool_decide; lia.
    - apply msum_nonneg. intros [b x] d' Hd. pose proof (li_dep s Hi b x) as [H0 _]. unfold vouchers, dep_of in H0. rewrite Hd in H0. cbn in H0. cbn. case_bool_decide; lia.
  Qed.
  Lemma voucher_prog s w a v : linv s -> rinv s -> floor_ok s -> lenient P -> FDIV <= index_of s a -> debt_now s a w <= U128MAX -> rewards_fit s a w -> is_collateral s a w = false ->
    0 < supply_of s a -> 0 <= backing C s a < supply_of s a -> bal (ln_led s) a (ln_acct C) + borrows_of s a <= U128MAX ->
    0 <= v <= vouchers s a w -> v * rate_of C s a / FDIV + reserves_of s a <= bal (ln_led s) a (ln_acct C) ->
    exists s' x, redeem_voucher C P s w a v = Ok (s', x).
  Proof.
    intros Hi R HF LP HX HD HW Hc HS HB HM Hv Hcash. destruct (exrate_prog s a Hi HF HS HB HM) as [Er Hr]. pose proof (li_dep s (proj1 Hi) a w) as [V0 V1]. pose proof (voucher_le_supply s a w Hi) as Hvs.
    destruct (li_acc s (proj1 Hi) a) as ((S0 & S1) & (B0 & _) & (R0 & _) & _).
    assert (0 <= v * rate_of C s a / FDIV <= v) as Hx. { split; [apply Z.div_pos; nia|]. apply Z.div_le_upper_bound; nia. }
    assert (Hu : to_underlying v (rate_of C s a) = Ok (v * rate_of C s a / FDIV)). { unfold to_underlying, f_checked_mul_int. rewrite Z.mul_comm. rewrite chk_ok by lia. reflexivity. }
    unfold redeem_voucher, redeem_allowed. cbn zeta. fold (vouchers s a w). replace (v <=? vouchers s a w) with true by lia. cbn [ensure rbind]. rewrite Er. cbn [rbind]. rewrite Hu. cbn [rbind].
    unfold enough_cash, cash. fold (reserves_of s a). unfold checked_sub at 1. rewrite chk_ok by (pose proof (li_led s (proj1 Hi)) as [HL _]; specialize (HL a (ln_acct C)); lia). cbn [ok_or rbind].
    replace (v * rate_of C s a / FDIV <=? bal (ln_led s) a (ln_acct C) - reserves_of s a) with true by lia. cbn [ensure rbind]. fold (is_collateral s a w). rewrite Hc. cbn [negb rbind].
    destruct (dist_s_prog s a w Hi R HX HD HW) as (s1 & s2 & E1 & E2). rewrite E1. cbn [rbind]. rewrite E2. cbn [rbind].
    assert (core_eq s s2) as Hcore by (eapply core_trans; [eapply upd_supply_index_core; eauto|eapply dist_supplier_core; eauto]). destruct Hcore as (A1 & A2 & A3 & A4 & A5 & ->).
    change (exrate C (aux s A1 A2 A3 A4 A5) a) with (exrate C s a). rewrite Er. cbn [rbind]. rewrite Hu. cbn [rbind]. change (d_v (dep_of (aux s A1 A2 A3 A4 A5) a w)) with (vouchers s a w).
    unfold checked_sub at 1. rewrite chk_ok by lia. cbn [ok_or rbind]. set (dd := mkDep _ _). set (s3 := put_dep_or_remove _ _ _ _).
    assert (acc_of s3 a = acc_of s a) as Ea by (subst s3; unfold put_dep_or_remove; destruct (_ =? 0); reflexivity). assert (ln_led s3 = ln_led s) as El by (subst s3; unfold put_dep_or_remove; destruct (_ =? 0); reflexivity).
    rewrite Ea. fold (supply_of s a). unfold checked_sub. rewrite chk_ok by lia. cbn [ok_or rbind]. change (ln_led (put_acc s3 a ?m)) with (ln_led s3). rewrite El.
    destruct (transfer_prog P (ln_led s) a (ln_acct C) w (v * rate_of C s a / FDIV) false LP) as [L' ->]; [lia|lia|]. cbn. eauto.
  Qed.
End live.
