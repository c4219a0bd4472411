(** * LoansProofs21: what others do leaves the rewards one has earned alone (markets without rewards for borrowers). *)
From Verif Require Import Base MapSum Ledger AmmModel LoansModel LoansSpec LoansSpec2 LoansProofs LoansProofs2 LoansProofs3 LoansProofs4 LoansProofs5 LoansProofs12 LoansProofs13 LoansProofs14 LoansProofs15 LoansProofs16 LoansProofs19.

Section keep.
  Context (C : loans_cfg) (P : policy).
  (** vouchers exist in markets only *)
  Definition in_markets (s : loans) : Prop := forall a w, ln_mkts s !! a = None -> vouchers s a w = 0.
  Definition sup_earned (s : loans) (a : asset) (w : account) : Z := vouchers s a w * (supply_index_now s a - six_of s a w) / RSCALE.
  Definition sup_claim (s : loans) (w : account) : Z := racc_of s w + msum (fun a _ => sup_earned s a w) (ln_mkts s).

  Lemma si_now_same s s' a : rinv s -> ln_rew s' = ln_rew s -> ln_block s' = ln_block s -> supply_of s' a = supply_of s a \/ ln_block s <= r_sb (rew_of s a) ->
    supply_index_now s' a = supply_index_now s a.
  Proof.
    intros R E1 E2 H. unfold supply_index_now, rew_of. cbn zeta. rewrite E1, E2. fold (rew_of s a). destruct H as [->|H]; [reflexivity|].
    pose proof (ri_block s R a) as [Hb _]. replace (ln_block s - r_sb (rew_of s a)) with 0 by lia. rewrite !Z.mul_0_l.
    rewrite !Zdiv_0_l. destruct (_ || _), (_ || _); reflexivity.
  Qed.
  Lemma si_now_current s a : rinv s -> ln_block s <= r_sb (rew_of s a) -> supply_index_now s a = r_si (rew_of s a).
  Proof.
    intros R H. unfold supply_index_now. cbn zeta. pose proof (ri_block s R a) as [Hb _]. replace (ln_block s - r_sb (rew_of s a)) with 0 by lia. rewrite !Z.mul_0_l.
    destruct (_ || _) eqn:E; [lia|]. apply orb_false_elim in E as [_ E]. rewrite Z.div_0_l; lia.
  Qed.
  Lemma claim_eq s s' w : ln_mkts s' = ln_mkts s -> racc_of s' w = racc_of s w -> (forall a, sup_earned s' a w = sup_earned s a w) -> sup_claim s' w = sup_claim s w.
  Proof. intros E1 E2 E3. unfold sup_claim. rewrite E1, E2. f_equal. apply msum_ext. intros a mk _. apply E3. Qed.

  Lemma earned_same s s' w a : rinv s -> same_rew s s' -> ln_deps s' = ln_deps s -> supply_of s' a = supply_of s a -> sup_earned s' a w = sup_earned s a w.
  Proof.
    intros R (E1 & E2 & E3 & E4 & E5) Hd Hs. unfold sup_earned. rewrite (si_now_same s s' a R E1 E5 (or_introl Hs)). unfold vouchers, dep_of, six_of. rewrite Hd, E2. reflexivity.
  Qed.
  Lemma racc_same s s' w : same_rew s s' -> racc_of s' w = racc_of s w.
  Proof. intros (_ & _ & _ & E & _). unfold racc_of. rewrite E. reflexivity. Qed.

  Lemma rmove_keep NB s p s' w : 0 <= ln_block s -> rinv s -> in_markets s -> no_borrow_rewards s -> rmove C P NB s p s' -> p = 0 ->
    in_markets s' /\ sup_claim s' w = sup_claim s w.
  Proof.
    intros B0 R V N H Hp0. destruct H as [s' H Hd Hs Hm|b mk s' H Hd Hs Hm|b s' _ _ H|b s' H|b x s' Hb H|b x s' H|b x s' H Hx _ Hk HS Hm Hb Hsup|b x d e s' H Hd Hd' Hs Hm|b y Hy Hb|b y Hy HN|x L Hp HL].
    - split; [intros a y Ha; rewrite Hm in Ha; unfold vouchers, dep_of; rewrite Hd; exact (V a y Ha)|].
      apply claim_eq; [auto|apply racc_same; auto|intros a; apply earned_same; auto].
    - split.
      + intros a y Ha. rewrite Hm in Ha. apply lookup_insert_None in Ha as [Ha _]. unfold vouchers, dep_of; rewrite Hd; exact (V a y Ha).
      + unfold sup_claim. rewrite (racc_same s s' w H), Hm, msum_insert. f_equal.
        rewrite (msum_ext _ (fun a _ => sup_earned s a w)) by (intros a m _; apply earned_same; auto). rewrite (earned_same s s' w b R H Hd (Hs b)).
        destruct (ln_mkts s !! b) eqn:Eb; [lia|]. unfold sup_earned. rewrite (V b w Eb), Z.mul_0_l, Z.div_0_l by (pose proof RSCALE_pos; lia). lia.
    - assert (R' : rinv s') by (eapply rinv_upd_s; [| |exact H]; eauto). destruct (upd_s_now0 s b s' R H) as (Q1 & Q2 & _ & _ & _ & Q6 & Q7 & (X & ->)). split; [exact V|].
      apply claim_eq; [reflexivity|reflexivity|]. intros a. unfold sup_earned. f_equal. f_equal. change (six_of (st_rew s X) a w) with (six_of s a w). f_equal.
      destruct (Z.eq_dec a b) as [->|Ne].
      + rewrite (si_now_current (st_rew s X) b R'); [exact Q1|]. rewrite Q2. cbn. lia.
      + unfold supply_index_now. rewrite Q7 by auto. reflexivity.
    - assert (exists i, s' = put_rew s b (mkMrew (r_ss (rew_of s b)) (r_bs (rew_of s b)) (r_si (rew_of s b)) (r_sb (rew_of s b)) i (ln_block s)) \/ s' = s) as (i & [-> | ->]).
      { unfold upd_borrow_index in H. cbn zeta in H. destruct (_ =? 0); [injection H as <-; exists 0; auto|]. bstep H i E. injection H as <-. exists i; auto. }
      + split; [exact V|]. apply claim_eq; [reflexivity|reflexivity|]. intros a. unfold sup_earned. f_equal. f_equal. f_equal.
        unfold supply_index_now. cbn zeta. rewrite rew_of_put. destruct (decide (a = b)) as [->|]; reflexivity.
      + auto.
    - assert (R' : rinv s') by (eapply rinv_dist_s; eauto). pose proof (ri_block s R b) as [Hb' _]. pose proof (dist_s_block _ _ _ _ H Hb) as Hbs.
      unfold dist_supplier in H. cbn zeta in H. bstep H d E1. bstep H y E2. bstep H t E3. injection H as Hs. destruct E1 as [-> E1], E3 as [-> E3].
      unfold reward_delta in E2. apply ok_or_ok, chk_some in E2 as [-> E2].
      assert (HM : ln_mkts s' = ln_mkts s) by (rewrite <- Hs; reflexivity). assert (HD : ln_deps s' = ln_deps s) by (rewrite <- Hs; reflexivity).
      split; [intros a z Ha; rewrite HM in Ha; unfold vouchers, dep_of; rewrite HD; exact (V a z Ha)|].
      assert (HI : forall a, supply_index_now s' a = supply_index_now s a) by (intros a; rewrite <- Hs; reflexivity).
      assert (HE : forall a, sup_earned s' a w = if decide (a = b /\ w = x) then 0 else sup_earned s a w).
      { intros a. unfold sup_earned. rewrite HI. unfold vouchers, dep_of. rewrite HD. fold (dep_of s a w) (vouchers s a w). destruct (decide _) as [[-> ->]|Ne].
        - rewrite (si_now_current s b R Hb). rewrite <- Hs. unfold six_of. cbn. rewrite lookup_insert. cbn. rewrite Z.sub_diag, Z.mul_0_r. apply Z.div_0_l. pose proof RSCALE_pos; lia.
        - rewrite <- Hs. unfold six_of at 1. cbn. rewrite lookup_insert_ne; [reflexivity|]. intros [= -> ->]. auto. }
      unfold sup_claim. rewrite HM. rewrite (msum_ext _ (fun a _ => if decide (a = b /\ w = x) then 0 else sup_earned s a w)) by (intros a m _; apply HE).
      assert (HR : racc_of s' w = racc_of s w + if decide (w = x) then sup_earned s b w else 0).
      { rewrite <- Hs. unfold racc_of at 1. cbn. destruct (decide (w = x)) as [->|Ne].
        - rewrite lookup_insert. cbn. unfold sup_earned. rewrite (si_now_current s b R Hb). unfold vouchers. lia.
        - rewrite lookup_insert_ne by auto. unfold racc_of. lia. }
      rewrite HR. destruct (decide (w = x)) as [->|Ne].
      + destruct (ln_mkts s !! b) as [mk|] eqn:Eb.
        * rewrite !(msum_delete _ (ln_mkts s) b mk Eb). rewrite decide_True by auto.
          rewrite (msum_ext (fun a _ => if decide (a = b /\ x = x) then 0 else sup_earned s a x) (fun a _ => sup_earned s a x)); [lia|].
          intros a m Ha. rewrite decide_False; [reflexivity|]. intros [-> _]. rewrite lookup_delete in Ha. discriminate Ha.
        * assert (sup_earned s b x = 0) as ->. { unfold sup_earned. rewrite (V b x Eb), Z.mul_0_l. apply Z.div_0_l. pose proof RSCALE_pos; lia. }
          rewrite (msum_ext (fun a _ => if decide (a = b /\ x = x) then 0 else sup_earned s a x) (fun a _ => sup_earned s a x)); [lia|].
          intros a m Ha. rewrite decide_False; [reflexivity|]. intros [-> _]. congruence.
      + rewrite Z.add_0_r. f_equal. apply msum_ext. intros a m _. rewrite decide_False; [reflexivity|]. intros [_ E]. auto.
    - destruct (phi_dist_b s b x s' R (proj2 (N b)) H) as [_ HR].
      unfold dist_borrower in H. cbn zeta in H. bstep H d E1. bstep H bb E0. bstep H sh E4. bstep H y E2. bstep H t E3. injection H as Hs. destruct E1 as [-> E1], E3 as [-> E3].
      pose proof (ri_bix s R b x) as Hbx. pose proof (proj2 (N b)) as Hz. unfold reward_delta in E2. apply ok_or_ok, chk_some in E2 as [-> E2].
      assert (Ez : sh * (r_bi (rew_of s b) - bix_of s b x) / RSCALE = 0).
      { replace (r_bi (rew_of s b) - bix_of s b x) with 0 by lia. rewrite Z.mul_0_r. apply Z.div_0_l. pose proof RSCALE_pos. lia. }
      rewrite Ez, Z.add_0_r in Hs. rewrite <- Hs. split; [exact V|]. apply claim_eq; [reflexivity| |reflexivity].
      unfold racc_of. cbn. destruct (Z.eq_dec w x) as [->|Ne]; [rewrite lookup_insert; reflexivity|rewrite lookup_insert_ne by auto; reflexivity].
    - destruct H as (F1 & F2 & F3 & F4 & F5). split.
      + intros a y Ha. rewrite Hm in Ha. unfold vouchers, dep_of. rewrite Hk; [exact (V a y Ha)|]. intros [= -> ->]. destruct HS as [? HS]. congruence.
      + apply claim_eq; [auto|apply racc_same; repeat split; auto|]. intros a. unfold sup_earned. rewrite (si_now_same s s' a R F1 F5 (Hsup a)).
        unfold six_of. rewrite F2. fold (six_of s a w). destruct (decide ((a, w) = (b, x))) as [[= -> ->]|Ne].
        * rewrite (si_now_current s b R Hb), Hx, Z.sub_diag, !Z.mul_0_r. reflexivity.
        * unfold vouchers, dep_of. rewrite Hk by auto. reflexivity.
    - pose proof H as (F1 & F2 & F3 & F4 & F5). assert (HV : forall a y, vouchers s' a y = vouchers s a y).
      { intros a y. unfold vouchers, dep_of. rewrite Hd'. destruct (decide ((a, y) = (b, x))) as [[= -> ->]|Ne]; [rewrite lookup_insert, Hd; reflexivity|rewrite lookup_insert_ne by auto; reflexivity]. }
      split; [intros a y Ha; rewrite Hm in Ha; rewrite HV; exact (V a y Ha)|]. apply claim_eq; [auto|apply racc_same; auto|]. intros a.
      unfold sup_earned. rewrite HV, (si_now_same s s' a R F1 F5 (or_introl (Hs a))). unfold six_of. rewrite F2. reflexivity.
    - split; [exact V|]. apply claim_eq; [reflexivity|reflexivity|]. intros a. unfold sup_earned. f_equal. f_equal. f_equal.
      destruct (Z.eq_dec a b) as [->|Ne].
      + assert (R' : rinv (put_rew s b (mkMrew y (r_bs (rew_of s b)) (r_si (rew_of s b)) (r_sb (rew_of s b)) (r_bi (rew_of s b)) (r_bb (rew_of s b))))).
        { pose proof (ri_speed s R b). pose proof (ri_block s R b). apply rinv_put; cbn; auto; try lia; apply (ri_speed s R b). }
        rewrite (si_now_current s b R Hb), (si_now_current _ b R'); rewrite rew_of_put, decide_True by auto; cbn; [reflexivity|lia].
      + unfold supply_index_now. cbn zeta. rewrite rew_of_put, decide_False by auto. reflexivity.
    - split; [exact V|]. apply claim_eq; [reflexivity|reflexivity|]. intros a. unfold sup_earned. f_equal. f_equal. f_equal.
      unfold supply_index_now. cbn zeta. rewrite rew_of_put. destruct (decide (a = b)) as [->|]; reflexivity.
    - lia.
  Qed.

  Lemma inm_same s s' : ln_mkts s' = ln_mkts s -> ln_deps s' = ln_deps s -> in_markets s -> in_markets s'.
  Proof. intros E1 E2 V a w Ha. rewrite E1 in Ha. unfold vouchers, dep_of. rewrite E2. exact (V a w Ha). Qed.
  Lemma inm_core s s' : core_eq s s' -> in_markets s -> in_markets s'.
  Proof. intros (R & E & X & Y & Z & ->). apply inm_same; reflexivity. Qed.
  Lemma rmove_inm NB s p s' : in_markets s -> rmove C P NB s p s' -> in_markets s'.
  Proof.
    intros V H. destruct H as [s' H Hd Hs Hm|b mk s' H Hd Hs Hm|b s' _ _ H|b s' H|b x s' Hb H|b x s' H|b x s' H Hx _ Hk HS Hm Hb Hsup|b x d e s' H Hd Hd' Hs Hm|b y Hy Hb|b y Hy HN|x L Hp HL].
    - apply (inm_same s); auto.
    - intros a y Ha. rewrite Hm in Ha. apply lookup_insert_None in Ha as [Ha _]. unfold vouchers, dep_of; rewrite Hd; exact (V a y Ha).
    - eapply inm_core; [eapply upd_supply_index_core; eauto|auto].
    - eapply inm_core; [eapply upd_borrow_index_core; eauto|auto].
    - eapply inm_core; [eapply dist_supplier_core; eauto|auto].
    - eapply inm_core; [eapply dist_borrower_core; eauto|auto].
    - intros a y Ha. rewrite Hm in Ha. unfold vouchers, dep_of. rewrite Hk; [exact (V a y Ha)|]. intros [= -> ->]. destruct HS as [? HS]. congruence.
    - intros a y Ha. rewrite Hm in Ha. unfold vouchers, dep_of. rewrite Hd'. destruct (decide ((a, y) = (b, x))) as [[= -> ->]|Ne].
      + rewrite lookup_insert. cbn. pose proof (V b x Ha) as Hv. unfold vouchers, dep_of in Hv. rewrite Hd in Hv. exact Hv.
      + rewrite lookup_insert_ne by auto. exact (V a y Ha).
    - exact V.
    - exact V.
    - exact V.
  Qed.
  Lemma rmoves_inm NB s p s' : in_markets s -> rmoves C P NB s p s' -> in_markets s'.
  Proof. intros V H. induction H as [s|s p s1 q s2 H1 H2 IH]; auto. apply IH. eapply rmove_inm; eauto. Qed.
  Lemma rmove_pos NB s p s' : rinv s -> rmove C P NB s p s' -> 0 <= p.
  Proof. intros R H. destruct H; lia. Qed.
  Lemma rmoves_pos NB s p s' : 0 <= ln_block s -> rinv s -> rmoves C P NB s p s' -> 0 <= p.
  Proof.
    intros Hb R H. induction H as [s|s p s1 q s2 H1 H2 IH]; [lia|]. pose proof (rmove_pos _ _ _ _ R H1).
    assert (0 <= q); [|lia]. apply IH; [rewrite (rmove_block _ _ _ _ _ _ H1); auto|eapply rmove_rinv; eauto].
  Qed.
  Lemma rmoves_keep (NB : Prop) s p s' w : NB -> 0 <= ln_block s -> rinv s -> in_markets s -> no_borrow_rewards s -> rmoves C P NB s p s' -> p = 0 -> sup_claim s' w = sup_claim s w.
  Proof.
    intros HNB Hb R V N H. induction H as [s|s p s1 q s2 H1 H2 IH]; [auto|]. intros Hp.
    pose proof (rmove_pos _ _ _ _ R H1). assert (Hb1 : 0 <= ln_block s1) by (rewrite (rmove_block _ _ _ _ _ _ H1); auto).
    pose proof (rmove_rinv C P _ _ _ _ Hb R H1) as R1. pose proof (rmoves_pos _ _ _ _ Hb1 R1 H2).
    destruct (rmove_keep _ _ _ _ w Hb R V N H1 ltac:(lia)) as [V1 E1]. rewrite <- E1. apply IH; [exact Hb1|exact R1|exact V1|exact (rmove_nb C P NB s p s1 HNB R N H1)|lia].
  Qed.
  Lemma transfer_inm s pt src dst amt s' : 0 <= amt -> linv s -> in_markets s -> transfer_pt C s pt src dst amt = Ok s' -> in_markets s'.
  Proof.
    intros Ha Hi V H. unfold transfer_pt in H. bstep H red E0. bstep H u0 E1. bstep H s1 E2. bstep H s2 E3. bstep H s3 E4. bstep H u E5.
    bstep H v E6. bstep H v' E7. injection H as <-. destruct E6 as [-> E6], E7 as [-> E7].
    assert (V3 : in_markets s3). { eapply inm_core; [eapply dist_supplier_core; eauto|]. eapply inm_core; [eapply dist_supplier_core; eauto|]. eapply inm_core; [eapply upd_supply_index_core; eauto|auto]. }
    intros b y Hb. assert (Hm : ln_mkts s3 !! b = None).
    { rewrite <- Hb. unfold put_dep_or_remove. destruct (_ =? 0); reflexivity. }
    rewrite vouchers_put. destruct (decide _) as [Hd|Ne].
    - injection Hd as -> ->. cbn [d_v]. pose proof (V3 u src Hm) as Hs. unfold vouchers in Hs. assert (amt = 0) by lia. subst amt.
      rewrite Z.add_0_r. change (vouchers (put_dep_or_remove s3 u src (mkDep (d_v (dep_of s3 u src) - 0) (d_col (dep_of s3 u src)))) u dst = 0).
      unfold put_dep_or_remove. cbn [d_v]. rewrite Hs. destruct (0 - 0 =? 0) eqn:Ez; [|discriminate Ez]. unfold vouchers, dep_of. cbn [ln_deps st_deps]. destruct (Z.eq_dec dst src) as [->|Nd].
      + rewrite lookup_delete. reflexivity.
      + rewrite lookup_delete_ne by congruence. exact (V3 u dst Hm).
    - unfold put_dep_or_remove. cbn [d_v]. destruct (_ =? 0) eqn:Ez; unfold vouchers, dep_of; cbn.
      + destruct (decide ((b, y) = (u, src))) as [->|Nd]; [rewrite lookup_delete; reflexivity|]. rewrite lookup_delete_ne by congruence. exact (V3 b y Hm).
      + destruct (decide ((b, y) = (u, src))) as [[= -> ->]|Nd]; [|rewrite lookup_insert_ne by congruence; exact (V3 b y Hm)].
        pose proof (V3 u src Hm) as Hs. unfold vouchers in Hs. lia.
  Qed.
  Lemma exec_inm s c s' : cfg_ok C -> call_ok C c -> linv s -> rinv s -> in_markets s -> loans_exec C P s c = Ok s' -> in_markets s'.
  Proof.
    intros HC Hc Hi R V H. destruct (match c with LTransferPt _ _ _ _ => true | _ => false end) eqn:Et.
    - destruct c; try discriminate Et. cbn in H, Hc. eapply transfer_inm; eauto. apply Hc.
    - destruct (exec_moves C P False s c s' HC Hc Hi) as (p & M & _); auto; [intros b; apply (ri_speed s R)|destruct c; auto; [intros []|discriminate Et]|].
      eapply rmoves_inm; eauto.
  Qed.
  Lemma reachable_inm s : cfg_ok C -> loans_reachable C P s -> in_markets s.
  Proof.
    intros HC (s0 & G & H). assert (in_markets s0) as V0.
    { destruct G as (_ & _ & _ & _ & E & _). intros a w _. unfold vouchers, dep_of. rewrite E, lookup_empty. reflexivity. }
    pose proof (genesis_linv s0 G) as I0. pose proof (genesis_rinv s0 G) as R0. clear G. induction H as [s|s1 s2 s3 H IH Hs]; auto.
    pose proof (steps_linv C P _ _ I0 H) as I2. assert (R2 : rinv s2).
    { clear -H I0 R0 HC. induction H as [s|s1 s2 s3 H IH Hs]; auto. eapply step_rinv; [exact HC| |apply IH; auto|exact Hs]. eapply steps_linv; eauto. }
    specialize (IH V0 I0 R0). destruct Hs as [c s' Hc Hx|L HL Hb|p Hp|t b Ht Hb]; [eapply exec_inm; eauto|exact IH|exact IH|exact IH].
  Qed.
  Lemma claimable_sup s w : rinv s -> no_borrow_rewards s -> claimable s w = sup_claim s w.
  Proof.
    intros R N. unfold claimable, sup_claim. f_equal. apply msum_ext. intros a mk _. unfold earned_in, sup_earned. rewrite RSCALE_val.
    assert (borrow_index_now s a - bix_of s a w = 0) as ->.
    { unfold borrow_index_now. cbn zeta. destruct (N a) as [-> Hz]. cbn. pose proof (ri_bix s R a w). lia. }
    rewrite Z.mul_0_r, Zdiv_0_l. lia.
  Qed.
  Lemma exec_keep s c s' w : cfg_ok C -> call_ok C c -> linv s -> rinv s -> in_markets s -> no_borrow_rewards s -> supplier_rewards_only C c -> claimer c = None ->
    loans_exec C P s c = Ok s' -> claimable s' w = claimable s w /\ no_borrow_rewards s'.
  Proof.
    intros HC Hc Hi R V N HQ Hcl H. destruct (exec_moves C P True s c s' HC Hc Hi) as (p & M & Hp); auto.
    { intros b. apply (ri_speed s R). }
    { destruct c; cbn in HQ |- *; auto. intros _. destruct HQ as [->| ->]; cbn; [apply (N a)|reflexivity]. }
    rewrite Hcl in Hp. pose proof (proj1 (proj2 (li_clock s (proj1 Hi)))) as Hb. destruct (rmoves_phi C P True s p s' I Hb R N M) as [_ N'].
    split; [|exact N']. pose proof (exec_rinv C P s c s' HC Hc Hi R H) as R'. rewrite !claimable_sup by auto. exact (rmoves_keep True s p s' w I Hb R V N M Hp).
  Qed.
  (** time *)
  Lemma clock_keep s t b w : linv s -> rinv s -> ln_block s <= b -> no_borrow_rewards s -> claimable s w <= claimable (st_clock s t b) w.
  Proof.
    intros Hi R Hb N. assert (R' : rinv (st_clock s t b)).
    { destruct R as [H1 H2 H3 H4 H5]. constructor; try assumption. intros a. change (rew_of (st_clock s t b) a) with (rew_of s a). change (ln_block (st_clock s t b)) with b. specialize (H5 a). lia. }
    rewrite !claimable_sup by auto. unfold sup_claim. change (racc_of (st_clock s t b) w) with (racc_of s w). change (ln_mkts (st_clock s t b)) with (ln_mkts s).
    apply Z.add_le_mono_l. apply msum_le. intros a mk _. unfold sup_earned. apply Z.div_le_mono; [apply RSCALE_pos|]. change (vouchers (st_clock s t b) a w) with (vouchers s a w).
    apply Z.mul_le_mono_nonneg_l; [apply (li_dep s (proj1 Hi))|]. change (six_of (st_clock s t b) a w) with (six_of s a w). apply Z.sub_le_mono_r.
    unfold supply_index_now. cbn zeta. change (rew_of (st_clock s t b) a) with (rew_of s a). change (supply_of (st_clock s t b) a) with (supply_of s a). change (ln_block (st_clock s t b)) with b.
    destruct (_ || _) eqn:E; [lia|]. apply orb_false_elim in E as [_ E]. apply Z.add_le_mono_l. pose proof (proj1 (li_acc s (proj1 Hi) a)) as Hs. unfold is_u128 in Hs. apply Z.div_le_mono; [lia|].
    apply Z.mul_le_mono_nonneg_r; [lia|]. pose proof (ri_speed s R a) as [[H1 _] _]. apply Z.mul_le_mono_nonneg_r; lia.
  Qed.
End keep.
