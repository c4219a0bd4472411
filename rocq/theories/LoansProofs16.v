(** * LoansProofs16: rewards stay within the emission; claims are exact. *)
From Verif Require Import Base MapSum Ledger AmmModel LoansModel LoansSpec LoansSpec2 LoansProofs LoansProofs2 LoansProofs3 LoansProofs4 LoansProofs5 LoansProofs12 LoansProofs13 LoansProofs14 LoansProofs15.

Section em.
  Context (C : loans_cfg) (P : policy).
  Lemma pend_nonneg s : linv s -> rinv s -> 0 <= pend s.
  Proof.
    intros Hi R. apply msum_nonneg. intros [a w] d Hd. cbn. pose proof (ri_six s R a w). pose proof (li_dep s (proj1 Hi) a w) as Hv.
    unfold vouchers, dep_of in Hv. rewrite Hd in Hv. cbn in Hv. apply Z.mul_nonneg_nonneg; lia.
  Qed.
  Lemma unindexed_nonneg s : rinv s -> 0 <= unindexed s.
  Proof.
    intros R. apply msum_nonneg. intros a r Hr. pose proof (ri_speed s R a) as [[H1 _] _]. pose proof (ri_block s R a) as [H2 _].
    unfold rew_of in *. rewrite Hr in *. cbn in *. apply Z.mul_nonneg_nonneg; lia.
  Qed.
  Lemma history_phi s0 e p s : cfg_ok C -> loans_genesis s0 -> reward_history C P (supplier_rewards_only C) s0 e p s ->
    linv s /\ rinv s /\ no_borrow_rewards s /\ phi s + RSCALE * p <= RSCALE * e.
  Proof.
    intros HC G H. induction H as [s|s0 e p s c s' H IH Hc HQ HX|s0 e p s L H IH HL Hb|s0 e p s x H IH Hx|s0 e p s t b H IH Ht Hb].
    - split; [apply (genesis_linv s G)|]. split; [apply (genesis_rinv s G)|]. destruct G as (_ & _ & _ & Er & Ed & _ & _ & _ & _ & Ea & _).
      split; [intros a; unfold rew_of; rewrite Er, lookup_empty; auto|]. unfold phi, credited, pend, unindexed. rewrite Er, Ed, Ea, !msum_empty. lia.
    - destruct (IH G) as (Hi & R & N & Hp). pose proof (exec_linv C P s c s' Hc Hi HX) as Hi'. pose proof (exec_rinv C P s c s' HC Hc Hi R HX) as R'.
      split; [auto|]. split; [auto|].
      destruct (exec_moves C P True s c s' HC Hc Hi) as (q & M & Hq); auto.
      { intros b. apply (ri_speed s R). }
      { destruct c; cbn in HQ |- *; auto. intros _. destruct HQ as [->| ->]; cbn; [apply (N a)|reflexivity]. }
      destruct (rmoves_phi C P True s q s' I (proj1 (proj2 (li_clock s (proj1 Hi)))) R N M) as [H1 H2]. split; [auto|].
      assert (q = paid_by C c s s') as ->; [|lia]. unfold paid_by. destruct c; cbn in HQ, Hq |- *; auto.
    - destruct (IH G) as (Hi & R & N & Hp). split; [apply (linv_led s L Hi HL)|]. split; [apply (rinv_same s); [repeat split|auto]|]. split; [apply (nb_same s); auto|].
      rewrite (phi_same s (st_led s L)); [auto|repeat split|reflexivity].
    - destruct (IH G) as (Hi & R & N & Hp). split; [apply (step_linv C P s _ Hi); apply step_oracle; auto|]. split; [apply (rinv_same s); [repeat split|auto]|]. split; [apply (nb_same s); auto|].
      rewrite (phi_same s (st_price s x)); [auto|repeat split|reflexivity].
    - destruct (IH G) as (Hi & R & N & Hp). pose proof (step_clock C P s t b Ht Hb) as HS. split; [apply (step_linv C P s _ Hi HS)|].
      split; [apply (step_rinv C P s _ HC Hi R HS)|]. split; [apply (nb_same s); auto|].
      assert (unindexed (st_clock s t b) = unindexed s + emission s (b - ln_block s)) as Eu.
      { unfold unindexed, emission. rewrite <- msum_add. apply msum_ext. intros a r Hr. pose proof (N a) as Hn. unfold rew_of in Hn. rewrite Hr in Hn. cbn in Hn |- *. lia. }
      unfold phi in *. rewrite Eu. change (credited (st_clock s t b)) with (credited s). change (pend (st_clock s t b)) with (pend s). lia.
  Qed.
  Lemma rewards_within_emission s0 e p s : cfg_ok C -> loans_genesis s0 -> reward_history C P (supplier_rewards_only C) s0 e p s -> p + credited s <= e.
  Proof.
    intros HC G H. destruct (history_phi s0 e p s HC G H) as (Hi & R & N & Hp). pose proof (pend_nonneg s Hi R). pose proof (unindexed_nonneg s R).
    pose proof RSCALE_pos. unfold phi in Hp. nia.
  Qed.

  (** ** Claims *)
  Lemma upd_s_now0 s a s' : rinv s -> upd_supply_index s a = Ok s' ->
    r_si (rew_of s' a) = supply_index_now s a /\ (r_sb (rew_of s' a) = ln_block s) /\ r_bi (rew_of s' a) = r_bi (rew_of s a) /\ r_bs (rew_of s' a) = r_bs (rew_of s a) /\ r_bb (rew_of s' a) = r_bb (rew_of s a) /\ r_ss (rew_of s' a) = r_ss (rew_of s a) /\
    (forall b, b <> a -> rew_of s' b = rew_of s b) /\ (exists R, s' = st_rew s R).
  Proof.
    intros R H. pose proof (ri_block s R a) as [Hb _]. unfold upd_supply_index in H. cbn zeta in H. unfold supply_index_now. cbn zeta. unfold saturating_sub in H.
    destruct (Z.max 0 _ =? 0) eqn:E0.
    - injection H as <-. assert (ln_block s = r_sb (rew_of s a)) as Eb by lia. split.
      { rewrite Eb, Z.sub_diag, !Z.mul_0_l. destruct (_ || _) eqn:Eo; [lia|]. apply orb_false_elim in Eo as [_ Eo]. rewrite Z.div_0_l by lia. lia. }
      split; [auto|]. do 4 (split; [reflexivity|]). split; [auto|]. exists (ln_rew s). destruct s; reflexivity.
    - rewrite Z.max_r in H by lia. bstep H i E. injection H as <-. rewrite rew_of_put. destruct (decide (a = a)); [|congruence]. cbn. split.
      { destruct (r_ss (rew_of s a) =? 0) eqn:Es; [injection E as <-; cbn; lia|]. cbn [orb]. bstep E d Ed. apply ok_or_ok in E. ok_arith E. destruct E as [-> _].
        unfold delta_index in Ed. fold (supply_of s a) in Ed. destruct (supply_of s a =? 0); [injection Ed as <-; lia|]. apply ok_or_ok, chk_some in Ed as [-> _]. rewrite RSCALE_val. lia. }
      do 5 (split; [reflexivity|]). split; [|eexists; reflexivity]. intros b Hne. rewrite rew_of_put. destruct (decide (b = a)); [congruence|reflexivity].
  Qed.
  Definition upd_s_now s a s' (_ : linv s) := upd_s_now0 s a s'.
  Lemma base_borrow_now s a x y : index_of s a <> 0 -> base_borrow (index_of s a) x = Some y -> y = at_index_one s a x.
  Proof.
    intros Hne H. unfold base_borrow in H. apply obind_some in H as (r & Er & H). unfold f_reciprocal in Er. apply f_checked_div_some in Er as (_ & -> & _).
    unfold f_checked_mul_int in H. apply chk_some in H as [-> _]. unfold at_index_one. rewrite FDIV_val. f_equal.
  Qed.
  Lemma upd_b_now s a s' : linv s -> rinv s -> index_of s a <> 0 -> upd_borrow_index s a = Ok s' ->
    r_bi (rew_of s' a) = borrow_index_now s a /\ (r_bb (rew_of s' a) = ln_block s) /\ r_si (rew_of s' a) = r_si (rew_of s a) /\ r_bs (rew_of s' a) = r_bs (rew_of s a) /\ r_sb (rew_of s' a) = r_sb (rew_of s a) /\ r_ss (rew_of s' a) = r_ss (rew_of s a) /\
    (forall b, b <> a -> rew_of s' b = rew_of s b) /\ (exists R, s' = st_rew s R).
  Proof.
    intros Hi R Hx H. pose proof (ri_block s R a) as [_ Hb]. unfold upd_borrow_index in H. cbn zeta in H. unfold borrow_index_now. cbn zeta. unfold saturating_sub in H.
    destruct (Z.max 0 _ =? 0) eqn:E0.
    - injection H as <-. assert (ln_block s = r_bb (rew_of s a)) as Eb by lia. split.
      { rewrite Eb, Z.sub_diag, !Z.mul_0_l. destruct (_ || _) eqn:Eo; [lia|]. apply orb_false_elim in Eo as [_ Eo]. rewrite Z.div_0_l by lia. lia. }
      split; [auto|]. do 4 (split; [reflexivity|]). split; [auto|]. exists (ln_rew s). destruct s; reflexivity.
    - rewrite Z.max_r in H by lia. bstep H i E. injection H as <-. rewrite rew_of_put. destruct (decide (a = a)); [|congruence]. cbn. split.
      { destruct (r_bs (rew_of s a) =? 0) eqn:Es; [injection E as <-; cbn; lia|]. cbn [orb]. bstep E sh Esh. bstep E d Ed. apply ok_or_ok in E. ok_arith E. destruct E as [-> _].
        fold (index_of s a) (borrows_of s a) in Esh. apply base_borrow_now in Esh as ->; auto.
        unfold delta_index in Ed. destruct (at_index_one s a (borrows_of s a) =? 0); [injection Ed as <-; lia|]. apply ok_or_ok, chk_some in Ed as [-> _]. rewrite RSCALE_val. lia. }
      do 5 (split; [reflexivity|]). split; [|eexists; reflexivity]. intros b Hne. rewrite rew_of_put. destruct (decide (b = a)); [congruence|reflexivity].
  Qed.
  Lemma borrow_balance_now s w a b : borrow_balance s w a = Ok b -> b = debt_now s a w.
  Proof.
    unfold borrow_balance, debt_now. cbn zeta. intros H. destruct (_ || _) eqn:E.
    - injection H as <-. apply orb_prop in E as [E|E].
      + destruct (b_i (debt_of s a w) =? 0); [reflexivity|]. replace (b_p (debt_of s a w)) with 0 by lia. rewrite Z.mul_0_r. rewrite Z.div_0_l; [reflexivity|]. pose proof FDIV_pos. lia.
      + rewrite E. reflexivity.
    - apply orb_false_elim in E as [_ E]. rewrite E. apply ok_or_ok in H. apply obind_some in H as (r & Er & H). apply f_checked_div_some in Er as (_ & -> & _).
      unfold f_checked_mul_int in H. apply chk_some in H as [-> _]. reflexivity.
  Qed.
  (** crediting the rewards of one market *)
  Lemma collect_exact s a w s' : linv s -> rinv s -> index_of s a <> 0 -> collect_reward s a w = Ok s' ->
    racc_of s' w = racc_of s w + earned_in s a w /\ (forall x, x <> w -> racc_of s' x = racc_of s x) /\
    earned_in s' a w = 0 /\ (forall b x, b <> a -> earned_in s' b x = earned_in s b x) /\ (forall x, x <> w -> earned_in s' a x = earned_in s a x) /\
    linv s' /\ rinv s' /\ core_eq s s' /\ (forall b, supply_index_now s' b = supply_index_now s b /\ borrow_index_now s' b = borrow_index_now s b).
  Proof.
    intros Hi R Hx H. pose proof (collect_reward_core _ _ _ _ H) as Hcore. unfold collect_reward in H. bstep H s1 E1. bstep H s2 E2. bstep H s3 E3.
    pose proof (proj1 (proj2 (li_clock s (proj1 Hi)))) as Hb0.
    pose proof (linv_upd_s _ _ _ Hi E1) as Hi1. pose proof (rinv_upd_s _ _ _ Hb0 R E1) as R1. pose proof (linv_dist_s _ _ _ _ Hi1 E2) as Hi2. pose proof (rinv_dist_s _ _ _ _ R1 E2) as R2.
    pose proof (proj1 (proj2 (li_clock s2 (proj1 Hi2)))) as Hb2.
    pose proof (linv_upd_b _ _ _ Hi2 E3) as Hi3. pose proof (rinv_upd_b _ _ _ Hb2 R2 E3) as R3. pose proof (linv_dist_b _ _ _ _ Hi3 H) as Hi4. pose proof (rinv_dist_b _ _ _ _ R3 H) as R4.
    destruct (upd_s_now s a s1 Hi R E1) as (A1 & A2 & A3 & A4 & A5 & A6 & A7 & (W1 & HW1)).
    unfold dist_supplier in E2. cbn zeta in E2. bstep E2 d1 G1. bstep E2 x1 G2. bstep E2 t1 G3. injection E2 as Hs2. destruct G1 as [-> G1], G3 as [-> G3].
    unfold reward_delta in G2. apply ok_or_ok, chk_some in G2 as [-> G2].
    assert (Hx2 : index_of s2 a <> 0) by (rewrite <- Hs2, HW1; exact Hx).
    destruct (upd_b_now s2 a s3 Hi2 R2 Hx2 E3) as (B1 & B2 & B3 & B4 & B5 & B6 & B7 & (W3 & HW3)).
    unfold dist_borrower in H. cbn zeta in H. bstep H d2 K1. bstep H bb K0. bstep H sh K4. bstep H x2 K2. bstep H t2 K3. injection H as Hs4. destruct K1 as [-> K1], K3 as [-> K3].
    unfold reward_delta in K2. apply ok_or_ok, chk_some in K2 as [-> K2]. apply borrow_balance_now in K0 as ->.
    assert (Hr2 : forall b, rew_of s2 b = rew_of s1 b) by (intros b; rewrite <- Hs2; reflexivity).
    assert (Hr4 : forall b, rew_of s' b = rew_of s3 b) by (intros b; rewrite <- Hs4; reflexivity).
    assert (Hacc : forall b, acc_of s' b = acc_of s b) by (intros b; destruct Hcore as (?&?&?&?&?&->); reflexivity).
    assert (Hacc2 : forall b, acc_of s2 b = acc_of s b) by (intros b; rewrite <- Hs2, HW1; reflexivity).
    assert (Hacc3 : forall b, acc_of s3 b = acc_of s b) by (intros b; rewrite HW3; apply Hacc2).
    assert (Hdebt3 : forall b x, debt_of s3 b x = debt_of s b x) by (intros b x; rewrite HW3, <- Hs2, HW1; reflexivity).
    assert (Hone : forall t b x, (forall c, acc_of t c = acc_of s c) -> at_index_one t b x = at_index_one s b x) by (intros t b x Ht; unfold at_index_one, index_of; rewrite Ht; reflexivity).
    assert (Hdn : debt_now s3 a w = debt_now s a w) by (unfold debt_now, index_of; rewrite Hdebt3, Hacc3; reflexivity).
    assert (Hblk : ln_block s2 = ln_block s) by (rewrite <- Hs2, HW1; reflexivity).
    assert (Hbn : borrow_index_now s2 a = borrow_index_now s a).
    { unfold borrow_index_now, borrows_of. rewrite (Hone s2) by auto. rewrite Hr2, A3, A4, A5, Hacc2, Hblk. reflexivity. }
    fold (index_of s3 a) in K4. apply base_borrow_now in K4 as ->; [|unfold index_of; rewrite Hacc3; exact Hx]. rewrite (Hone s3) in Hs4, K3, K2 by auto. rewrite Hdn, B1, Hbn in Hs4, K3, K2.
    rewrite A1 in Hs2, G3, G2.
    assert (Hv1 : d_v (dep_of s1 a w) = vouchers s a w) by (rewrite HW1; reflexivity).
    assert (Hsx1 : six_of s1 a w = six_of s a w) by (rewrite HW1; reflexivity).
    assert (Hbx3 : bix_of s3 a w = bix_of s a w) by (rewrite HW3, <- Hs2, HW1; reflexivity).
    assert (Hra3 : racc_of s3 w = racc_of s w + vouchers s a w * (supply_index_now s a - six_of s a w) / RSCALE).
    { rewrite HW3, <- Hs2. change (default 0 ((<[w := racc_of s1 w + d_v (dep_of s1 a w) * (supply_index_now s a - six_of s1 a w) / RSCALE]> (ln_racc s1)) !! w) = racc_of s w + vouchers s a w * (supply_index_now s a - six_of s a w) / RSCALE).
      rewrite lookup_insert. cbn. rewrite Hv1, Hsx1, HW1. reflexivity. }
    split; [|split; [|split; [|split; [|split]]]].
    - rewrite <- Hs4. change (default 0 ((<[w := racc_of s3 w + at_index_one s a (debt_now s a w) * (borrow_index_now s a - bix_of s3 a w) / RSCALE]> (ln_racc s3)) !! w) = racc_of s w + earned_in s a w).
      rewrite lookup_insert. cbn. rewrite Hra3, Hbx3. unfold earned_in. rewrite RSCALE_val. lia.
    - intros x Hne. rewrite <- Hs4. change (default 0 ((<[w := racc_of s3 w + at_index_one s a (debt_now s a w) * (borrow_index_now s a - bix_of s3 a w) / RSCALE]> (ln_racc s3)) !! x) = racc_of s x).
      rewrite lookup_insert_ne by auto. rewrite HW3, <- Hs2. change (default 0 ((<[w := racc_of s1 w + d_v (dep_of s1 a w) * (supply_index_now s a - six_of s1 a w) / RSCALE]> (ln_racc s1)) !! x) = racc_of s x).
      rewrite lookup_insert_ne by auto. rewrite HW1. reflexivity.
    - unfold earned_in.
      assert (supply_index_now s' a = six_of s' a w) as ->.
      { assert (six_of s' a w = supply_index_now s a) as ->. { rewrite <- Hs4. change (six_of (st_racc (st_bix s3 _) _) a w) with (six_of s3 a w). rewrite HW3, <- Hs2. unfold six_of. cbn. rewrite lookup_insert. reflexivity. }
        unfold supply_index_now at 1. cbn zeta. rewrite Hr4, B3, B5, B6, Hr2, A1, A2. assert (ln_block s' = ln_block s) as -> by (destruct Hcore as (?&?&?&?&?&->); reflexivity).
        rewrite Z.sub_diag, !Z.mul_0_l. destruct (_ || _) eqn:Eo; [lia|]. apply orb_false_elim in Eo as [_ Eo]. rewrite Z.div_0_l by lia. lia. }
      assert (borrow_index_now s' a = bix_of s' a w) as ->.
      { assert (bix_of s' a w = borrow_index_now s a) as ->. { rewrite <- Hs4. unfold bix_of. cbn. rewrite lookup_insert. reflexivity. }
        unfold borrow_index_now at 1. cbn zeta. rewrite Hr4, B1, B2, Hbn. assert (ln_block s' = ln_block s2) as -> by (rewrite Hblk; destruct Hcore as (?&?&?&?&?&->); reflexivity).
        rewrite Z.sub_diag, !Z.mul_0_l. destruct (_ || _) eqn:Eo; [lia|]. apply orb_false_elim in Eo as [_ Eo]. rewrite Z.div_0_l by lia. lia. }
      rewrite !Z.sub_diag, !Z.mul_0_r. reflexivity.
    - intros b x Hne. unfold earned_in, supply_index_now, borrow_index_now, debt_now, at_index_one, index_of, supply_of, borrows_of. rewrite Hr4, B7, Hr2, A7, Hacc by auto.
      assert (six_of s' b x = six_of s b x) as ->. { rewrite <- Hs4, HW3, <- Hs2, HW1. unfold six_of. cbn. rewrite lookup_insert_ne by congruence. reflexivity. }
      assert (bix_of s' b x = bix_of s b x) as ->. { rewrite <- Hs4, HW3, <- Hs2, HW1. unfold bix_of. cbn. rewrite lookup_insert_ne by congruence. reflexivity. }
      destruct Hcore as (?&?&?&?&?&->). reflexivity.
    - intros x Hne. unfold earned_in.
      assert (Q1 : supply_index_now s' a = supply_index_now s a).
      { unfold supply_index_now at 1. cbn zeta. rewrite Hr4, B3, B5, B6, Hr2, A1, A2. assert (ln_block s' = ln_block s) as -> by (destruct Hcore as (?&?&?&?&?&->); reflexivity).
        rewrite Z.sub_diag, !Z.mul_0_l. destruct (_ || _) eqn:Eo; [lia|]. apply orb_false_elim in Eo as [_ Eo]. rewrite Z.div_0_l by lia. lia. }
      assert (Q2 : borrow_index_now s' a = borrow_index_now s a).
      { unfold borrow_index_now at 1. cbn zeta. rewrite Hr4, B1, B2, Hbn. assert (ln_block s' = ln_block s2) as -> by (rewrite Hblk; destruct Hcore as (?&?&?&?&?&->); reflexivity).
        rewrite Z.sub_diag, !Z.mul_0_l. destruct (_ || _) eqn:Eo; [lia|]. apply orb_false_elim in Eo as [_ Eo]. rewrite Z.div_0_l by lia. lia. }
      rewrite Q1, Q2.
      assert (six_of s' a x = six_of s a x) as ->. { rewrite <- Hs4, HW3, <- Hs2, HW1. unfold six_of. cbn. rewrite lookup_insert_ne by congruence. reflexivity. }
      assert (bix_of s' a x = bix_of s a x) as ->. { rewrite <- Hs4, HW3, <- Hs2, HW1. unfold bix_of. cbn. rewrite lookup_insert_ne by congruence. reflexivity. }
      rewrite (Hone s') by auto. unfold debt_now, index_of. rewrite Hacc. destruct Hcore as (?&?&?&?&?&->). reflexivity.
    - split; [exact Hi4|]. split; [exact R4|]. split; [exact Hcore|]. assert (Hbk : ln_block s' = ln_block s) by (destruct Hcore as (?&?&?&?&?&->); reflexivity). intros b. destruct (Z.eq_dec b a) as [->|Hne].
      + split.
        * unfold supply_index_now at 1. cbn zeta. rewrite Hr4, B3, B5, B6, Hr2, A1, A2, Hbk.
          rewrite Z.sub_diag, !Z.mul_0_l. destruct (_ || _) eqn:Eo; [lia|]. apply orb_false_elim in Eo as [_ Eo]. rewrite Z.div_0_l by lia. lia.
        * unfold borrow_index_now at 1. cbn zeta. rewrite Hr4, B1, B2, Hbn, Hbk, Hblk.
          rewrite Z.sub_diag, !Z.mul_0_l. destruct (_ || _) eqn:Eo; [lia|]. apply orb_false_elim in Eo as [_ Eo]. rewrite Z.div_0_l by lia. lia.
      + unfold supply_index_now, borrow_index_now, at_index_one, index_of, supply_of, borrows_of. rewrite Hr4, B7, Hr2, A7, Hacc, Hbk by auto. auto.
  Qed.
End em.
