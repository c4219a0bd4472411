(** * LoansProofs14: every call as a sequence of elementary reward moves. *)
From Verif Require Import Base MapSum Ledger AmmModel LoansModel LoansSpec LoansSpec2 LoansProofs LoansProofs2 LoansProofs3 LoansProofs4 LoansProofs5 LoansProofs13.

Ltac sup_tac := intros ?b; repeat (first [reflexivity | progress (repeat match goal with |- context [supply_of (st_led ?y ?L) ?b] => change (supply_of (st_led y L) b) with (supply_of y b) end) | rewrite supply_put_acc; case_decide; subst]).
Section moves.
  (** [NB]: no borrow rewards are ever set *)
  Context (C : loans_cfg) (P : policy) (NB : Prop).

  (** the reward bookkeeping is the same *)
  Definition same_rew (s s' : loans) : Prop :=
    ln_rew s' = ln_rew s /\ ln_six s' = ln_six s /\ ln_bix s' = ln_bix s /\ ln_racc s' = ln_racc s /\ ln_block s' = ln_block s.
  Inductive rmove (s : loans) : Z -> loans -> Prop :=
  | rm_neutral s' : same_rew s s' -> ln_deps s' = ln_deps s -> (forall b, supply_of s' b = supply_of s b) -> ln_mkts s' = ln_mkts s -> rmove s 0 s'
  | rm_market a mk s' : same_rew s s' -> ln_deps s' = ln_deps s -> (forall b, supply_of s' b = supply_of s b) -> ln_mkts s' = <[a := mk]> (ln_mkts s) -> rmove s 0 s'
  | rm_upd_s a s' : 0 <= supply_of s a -> voucher_sum s a = supply_of s a -> upd_supply_index s a = Ok s' -> rmove s 0 s'
  | rm_upd_b a s' : upd_borrow_index s a = Ok s' -> rmove s 0 s'
  | rm_dist_s a w s' : ln_block s <= r_sb (rew_of s a) -> dist_supplier s a w = Ok s' -> rmove s 0 s'
  | rm_dist_b a w s' : dist_borrower s a w = Ok s' -> rmove s 0 s'
  | rm_dep a w s' : same_rew s s' -> six_of s a w = r_si (rew_of s a) -> 0 <= vouchers s' a w ->
      (forall k, k <> (a, w) -> ln_deps s' !! k = ln_deps s !! k) ->
      is_Some (ln_mkts s !! a) -> ln_mkts s' = ln_mkts s -> ln_block s <= r_sb (rew_of s a) -> (forall b, supply_of s' b = supply_of s b \/ ln_block s <= r_sb (rew_of s b)) -> rmove s 0 s'
  | rm_flag a w d e s' : same_rew s s' -> ln_deps s !! (a, w) = Some d -> ln_deps s' = <[(a, w) := mkDep (d_v d) e]> (ln_deps s) ->
      (forall b, supply_of s' b = supply_of s b) -> ln_mkts s' = ln_mkts s -> rmove s 0 s'
  | rm_speed_s a x : is_u128 x -> ln_block s <= r_sb (rew_of s a) ->
      rmove s 0 (put_rew s a (mkMrew x (r_bs (rew_of s a)) (r_si (rew_of s a)) (r_sb (rew_of s a)) (r_bi (rew_of s a)) (r_bb (rew_of s a))))
  | rm_speed_b a x : is_u128 x -> (NB -> x = 0) ->
      rmove s 0 (put_rew s a (mkMrew (r_ss (rew_of s a)) x (r_si (rew_of s a)) (r_sb (rew_of s a)) (r_bi (rew_of s a)) (r_bb (rew_of s a))))
  | rm_pay w L : 0 < racc_of s w -> transfer P (ln_led s) (rew_asset C) (rew_acct C) w (racc_of s w) true = Ok L ->
      rmove s (racc_of s w) (st_racc (st_led s L) (delete w (ln_racc s))).
  Inductive rmoves : loans -> Z -> loans -> Prop :=
  | rms_refl s : rmoves s 0 s
  | rms_step s p s1 q s2 : rmove s p s1 -> rmoves s1 q s2 -> rmoves s (p + q) s2.
  Lemma rms_one s s' : rmove s 0 s' -> rmoves s 0 s'.
  Proof. intros H. exact (rms_step s 0 s' 0 s' H (rms_refl s')). Qed.
  Lemma rms_app s p s1 q s2 : rmoves s p s1 -> rmoves s1 q s2 -> rmoves s (p + q) s2.
  Proof.
    intros H. revert q s2. induction H as [s|s p s1 q s2 H1 H2 IH]; intros q' s' H'; [exact H'|]. rewrite <- Z.add_assoc. econstructor; eauto.
  Qed.
  Lemma rms_app0 s s1 s2 : rmoves s 0 s1 -> rmoves s1 0 s2 -> rmoves s 0 s2.
  Proof. intros H1 H2. exact (rms_app s 0 s1 0 s2 H1 H2). Qed.
  Lemma rms_neutral s s' : same_rew s s' -> ln_deps s' = ln_deps s -> (forall b, supply_of s' b = supply_of s b) -> ln_mkts s' = ln_mkts s -> rmoves s 0 s'.
  Proof. intros. apply rms_one. apply rm_neutral; auto. Qed.
  Lemma rms_market s a mk s' : same_rew s s' -> ln_deps s' = ln_deps s -> (forall b, supply_of s' b = supply_of s b) -> ln_mkts s' = <[a := mk]> (ln_mkts s) -> rmoves s 0 s'.
  Proof. intros. apply rms_one. eapply rm_market; eauto. Qed.
  Lemma same_refl s : same_rew s s. Proof. repeat split. Qed.

  Lemma linv_upd_s s a s' : linv s -> upd_supply_index s a = Ok s' -> linv s'.
  Proof. intros Hi H. eapply linv_core; [eapply upd_supply_index_core; eauto|exact Hi]. Qed.
  Lemma linv_upd_b s a s' : linv s -> upd_borrow_index s a = Ok s' -> linv s'.
  Proof. intros Hi H. eapply linv_core; [eapply upd_borrow_index_core; eauto|exact Hi]. Qed.
  Lemma linv_dist_s s a w s' : linv s -> dist_supplier s a w = Ok s' -> linv s'.
  Proof. intros Hi H. eapply linv_core; [eapply dist_supplier_core; eauto|exact Hi]. Qed.
  Lemma linv_dist_b s a w s' : linv s -> dist_borrower s a w = Ok s' -> linv s'.
  Proof. intros Hi H. eapply linv_core; [eapply dist_borrower_core; eauto|exact Hi]. Qed.
  Lemma accrue_supply_same s a s1 : accrue C s a = Ok s1 -> forall b, supply_of s1 b = supply_of s b.
  Proof.
    intros H. apply accrue_unfold in H as [[_ ->]|[(_ & _ & ->)|(_ & _ & H)]].
    - sup_tac.
    - reflexivity.
    - destruct H as (mk & util & rate & i & d & ex & _ & _ & _ & _ & _ & _ & _ & _ & _ & ->). sup_tac.
  Qed.
  Lemma upd_s_block s a t : upd_supply_index s a = Ok t -> ln_block t <= r_sb (rew_of t a) /\ ln_block t = ln_block s.
  Proof.
    unfold upd_supply_index. intros H. cbn zeta in H. destruct (_ =? 0) eqn:E; [injection H as <-; unfold saturating_sub in E; lia|].
    bstep H i Ei. injection H as <-. unfold rew_of, put_rew. cbn. rewrite lookup_insert. cbn. lia.
  Qed.
  Lemma dist_s_block s a w t : dist_supplier s a w = Ok t -> ln_block s <= r_sb (rew_of s a) -> ln_block t <= r_sb (rew_of t a).
  Proof. unfold dist_supplier. intros H. cbn zeta in H. bstep H d E1. bstep H x E2. bstep H y E3. injection H as <-. auto. Qed.
  Lemma mkts_core s s' : core_eq s s' -> ln_mkts s' = ln_mkts s.
  Proof. intros (R & E & X & Y & Z & ->). reflexivity. Qed.
  Lemma rms_accrue s a s1 : accrue C s a = Ok s1 -> rmoves s 0 s1.
  Proof. intros H. pose proof (accrue_supply_same s a s1 H). apply accrue_mkts in H as [X ->]. apply rms_neutral; [repeat split|reflexivity|assumption|reflexivity]. Qed.
  Lemma rms_upd_s s a s' : linv s -> upd_supply_index s a = Ok s' -> rmoves s 0 s'.
  Proof. intros Hi H. apply rms_one. apply (rm_upd_s s a); auto; [apply (li_acc s (proj1 Hi) a)|apply Hi]. Qed.
  Lemma rms_upd_b s a s' : upd_borrow_index s a = Ok s' -> rmoves s 0 s'.
  Proof. intros H. apply rms_one. apply (rm_upd_b s a); auto. Qed.
  Lemma rms_dist_s s a w s' : ln_block s <= r_sb (rew_of s a) -> dist_supplier s a w = Ok s' -> rmoves s 0 s'.
  Proof. intros Hb H. apply rms_one. apply (rm_dist_s s a w); auto. Qed.
  Lemma rms_dist_b s a w s' : dist_borrower s a w = Ok s' -> rmoves s 0 s'.
  Proof. intros H. apply rms_one. apply (rm_dist_b s a w); auto. Qed.
  Lemma rms_earned s w a r s' : update_earned s w a r = Ok s' -> rmoves s 0 s'.
  Proof. unfold update_earned. intros H. bstep H t E. injection H as <-. apply rms_neutral; [repeat split|reflexivity|sup_tac|reflexivity]. Qed.
  Lemma dist_s_current s a w s' : dist_supplier s a w = Ok s' -> six_of s' a w = r_si (rew_of s' a) /\ rew_of s' a = rew_of s a /\
    (forall w', six_of s a w' = r_si (rew_of s a) -> six_of s' a w' = r_si (rew_of s' a)).
  Proof.
    unfold dist_supplier. intros H. cbn zeta in H. bstep H d E1. bstep H x E2. bstep H t E3. injection H as <-.
    split; [unfold six_of; cbn; rewrite lookup_insert; reflexivity|]. split; [reflexivity|]. intros w' Hw. unfold six_of. cbn.
    destruct (Z.eq_dec w' w) as [->|Ne]; [rewrite lookup_insert; reflexivity|]. rewrite lookup_insert_ne by congruence. exact Hw.
  Qed.

  Lemma mint_moves s w a amt s' : linv s -> do_mint C P s w a amt = Ok s' -> linv s' -> rmoves s 0 s'.
  Proof.
    intros Hi H Hi'. unfold do_mint in H. bstep H u0 E0. bstep H mk E1. bstep H u1 E2. bstep H s1 E3. bstep H s2 E4. bstep H s3 E5. bstep H r E6. bstep H s4 E7.
    bstep H v E8. bstep H u2 E9. bstep H L E10. bstep H v' E11. bstep H t E12. injection H as <-.
    pose proof (accrue_linv C _ _ _ Hi E3) as Hi1. destruct (dist_s_current _ _ _ _ E5) as (Q1 & _).
    eapply rms_app0; [eapply rms_accrue; eauto|]. eapply rms_app0; [eapply rms_upd_s; eauto|]. eapply rms_app0; [eapply rms_dist_s; eauto; eapply upd_s_block; eauto|].
    assert (B : ln_block s3 <= r_sb (rew_of s3 a)) by (eapply dist_s_block; [exact E5|]; apply (upd_s_block _ _ _ E4)).
    assert (M : is_Some (ln_mkts s3 !! a)).
    { rewrite (mkts_core _ _ (dist_supplier_core _ _ _ _ E5)), (mkts_core _ _ (upd_supply_index_core _ _ _ E4)). apply accrue_mkts in E3 as [X ->].
      cbn. destruct (ensure_active_ok s a mk E1) as [Hm _]. rewrite Hm. eauto. }
    unfold update_earned in E7. bstep E7 tt E7a. injection E7 as <-.
    apply rms_one. apply (rm_dep s3 a w); [repeat split|exact Q1|apply Hi'| |exact M|reflexivity|exact B|].
    - intros k Hk. cbn. rewrite lookup_insert_ne by congruence. reflexivity.
    - intros b. destruct (decide (b = a)) as [->|]; [right; exact B|left]. rewrite supply_put_acc. case_decide; [congruence|]. reflexivity.
  Qed.
  Lemma put_rm_same s a w d : same_rew s (put_dep_or_remove s a w d).
  Proof. unfold put_dep_or_remove. destruct (_ =? 0); repeat split. Qed.
  Lemma put_rm_other s a w d k : k <> (a, w) -> ln_deps (put_dep_or_remove s a w d) !! k = ln_deps s !! k.
  Proof. intros H. unfold put_dep_or_remove. destruct (_ =? 0); cbn; [rewrite lookup_delete_ne|rewrite lookup_insert_ne]; auto. Qed.
  Lemma redeem_voucher_moves s w a v s' x : linv s -> redeem_voucher C P s w a v = Ok (s', x) -> 0 <= vouchers s' a w -> is_Some (ln_mkts s !! a) -> rmoves s 0 s'.
  Proof.
    intros Hi H Hv HM. unfold redeem_voucher in H. bstep H u0 E0. bstep H s1 E1. bstep H s2 E2. bstep H r E3. bstep H x0 E4.
    bstep H v' E5. bstep H t E6. bstep H L E7. injection H as Hs _.
    destruct (dist_s_current _ _ _ _ E2) as (Q1 & _).
    eapply rms_app0; [eapply rms_upd_s; eauto|]. eapply rms_app0; [eapply rms_dist_s; eauto; eapply upd_s_block; eauto|].
    assert (B : ln_block s2 <= r_sb (rew_of s2 a)) by (eapply dist_s_block; [exact E2|]; apply (upd_s_block _ _ _ E1)).
    assert (M : ln_mkts s2 = ln_mkts s) by (rewrite (mkts_core _ _ (dist_supplier_core _ _ _ _ E2)), (mkts_core _ _ (upd_supply_index_core _ _ _ E1)); reflexivity).
    apply rms_one. apply (rm_dep s2 a w); [|exact Q1|exact Hv| |rewrite M; exact HM| |exact B|].
    - rewrite <- Hs. apply put_rm_same.
    - intros k Hk. rewrite <- Hs. apply put_rm_other. exact Hk.
    - rewrite <- Hs. unfold put_dep_or_remove. destruct (_ =? 0); reflexivity.
    - intros b. destruct (decide (b = a)) as [->|]; [right; exact B|left]. rewrite <- Hs. change (supply_of (st_led ?y L) b) with (supply_of y b). rewrite supply_put_acc. case_decide; [congruence|].
      unfold put_dep_or_remove. destruct (_ =? 0); reflexivity.
  Qed.
  Lemma do_redeem_moves s w a amt s' x : linv s -> do_redeem C P s w a amt = Ok (s', x) -> linv s' -> rmoves s 0 s'.
  Proof.
    intros Hi H Hi'. unfold do_redeem in H. bstep H mk E1. bstep H s1 E2. bstep H r E3. bstep H s2 E4. bstep H v E5.
    pose proof (accrue_linv C _ _ _ Hi E2) as Hi1. assert (Hi2 : linv s2) by (eapply linv_core; [eapply update_earned_core; eauto|exact Hi1]).
    eapply rms_app0; [eapply rms_accrue; eauto|]. eapply rms_app0; [eapply rms_earned; eauto|].
    eapply redeem_voucher_moves; eauto; [apply Hi'|]. rewrite (mkts_core _ _ (update_earned_core _ _ _ _ _ E4)). apply accrue_mkts in E2 as [X ->]. cbn. destruct (ensure_active_ok s a mk E1) as [Hm _]. rewrite Hm. eauto.
  Qed.
  Lemma do_redeem_all_moves s w a s' x : linv s -> do_redeem_all C P s w a = Ok (s', x) -> linv s' -> rmoves s 0 s'.
  Proof.
    intros Hi H Hi'. unfold do_redeem_all in H. bstep H mk E1. bstep H s1 E2. bstep H r E3. bstep H s2 E4.
    pose proof (accrue_linv C _ _ _ Hi E2) as Hi1. assert (Hi2 : linv s2) by (eapply linv_core; [eapply update_earned_core; eauto|exact Hi1]).
    eapply rms_app0; [eapply rms_accrue; eauto|]. eapply rms_app0; [eapply rms_earned; eauto|].
    eapply redeem_voucher_moves; eauto; [apply Hi'|]. rewrite (mkts_core _ _ (update_earned_core _ _ _ _ _ E4)). apply accrue_mkts in E2 as [X ->]. cbn. destruct (ensure_active_ok s a mk E1) as [Hm _]. rewrite Hm. eauto.
  Qed.
  Lemma borrow_moves s w a amt s' : linv s -> do_borrow C P s w a amt = Ok s' -> rmoves s 0 s'.
  Proof.
    intros Hi H. unfold do_borrow in H. bstep H mk E1. bstep H s1 E2. bstep H u E3. bstep H s2 E4. bstep H s3 E5. bstep H b E6. bstep H b' E7. bstep H t E8. bstep H L E9. injection H as <-.
    eapply rms_app0; [eapply rms_accrue; eauto|]. eapply rms_app0; [eapply rms_upd_b; eauto|]. eapply rms_app0; [eapply rms_dist_b; eauto|].
    apply rms_neutral; [repeat split|reflexivity|sup_tac|reflexivity].
  Qed.
  Lemma repay_moves s w a amt s' : linv s -> do_repay C P s w a amt = Ok s' -> rmoves s 0 s'.
  Proof.
    intros Hi H. unfold do_repay in H. bstep H mk E1. bstep H s1 E2. bstep H b E3. unfold repay_with_amount in H. bstep H u E4. bstep H s2 E5. bstep H s3 E6. bstep H L E7. bstep H b' E8. injection H as <-.
    eapply rms_app0; [eapply rms_accrue; eauto|]. eapply rms_app0; [eapply rms_upd_b; eauto|]. eapply rms_app0; [eapply rms_dist_b; eauto|].
    apply rms_neutral; [repeat split|reflexivity|sup_tac|reflexivity].
  Qed.
  Lemma liquidate_moves s liq w la amt ca s' : linv s -> liquidate C P s liq w la amt ca = Ok s' -> rmoves s 0 s'.
  Proof.
    intros Hi H. unfold liquidate in H. bstep H u0 E0. bstep H s1 E1. bstep H s2 E2.
    pose proof (accrue_linv C _ _ _ Hi E1) as Hi1. pose proof (accrue_linv C _ _ _ Hi1 E2) as Hi2.
    eapply rms_app0; [eapply rms_accrue; eauto|]. eapply rms_app0; [eapply rms_accrue; eauto|]. clear E0 E1 E2 Hi Hi1 u0 s s1. rename s2 into s, Hi2 into Hi.
    unfold do_liquidate in H. bstep H m1 E1. bstep H m2 E2. bstep H mk E3. bstep H u1 E4. bstep H u2 E5. bstep H u3 E6. bstep H r E7.
    bstep H x E8. bstep H cv E9. bstep H rv E10. bstep H lv E11. bstep H u4 E12. bstep H cp E13. bstep H under E14.
    unfold liquidated_transfer in H. bstep H s1 F1. bstep H s2 F2. bstep H L F3. bstep H b F4. bstep H b' F5. bstep H t F6.
    bstep H s6 F7. bstep H s7 F8. bstep H s8 F9. bstep H s9 F10. bstep H r' F11. bstep H k F12. bstep H vw F13.
    bstep H q F14. bstep H sh F15. bstep H vl F16. bstep H vi F17. injection H as <-.
    destruct F13 as [-> F13], F16 as [-> F16], F17 as [-> F17].
    pose proof (linv_upd_b _ _ _ Hi F1) as I1. pose proof (linv_dist_b _ _ _ _ I1 F2) as I2.
    match type of F7 with upd_supply_index ?y _ = _ => set (s5 := y) in * end.
    assert (Hsum : forall a, voucher_sum s5 a = supply_of s5 a).
    { intros a. transitivity (supply_of s2 a); [apply I2|]. unfold s5. rewrite supply_put_acc. destruct (decide (a = la)) as [->|]; reflexivity. }
    assert (Hsup : 0 <= supply_of s5 ca).
    { assert (supply_of s5 ca = supply_of s2 ca) as ->; [unfold s5; rewrite supply_put_acc; destruct (decide (ca = la)) as [->|]; reflexivity|]. apply (li_acc s2 (proj1 I2) ca). }
    destruct (dist_s_current _ _ _ _ F8) as (Q1 & _). destruct (dist_s_current _ _ _ _ F9) as (Q2 & _ & K2). destruct (dist_s_current _ _ _ _ F10) as (Q3 & _ & K3).
    apply K2, K3 in Q1. apply K3 in Q2.
    eapply rms_app0; [eapply rms_upd_b; eauto|]. eapply rms_app0; [eapply rms_dist_b; eauto|].
    eapply rms_app0; [apply (rms_neutral s2 s5); [repeat split|reflexivity|unfold s5; sup_tac|reflexivity]|].
    eapply rms_app0; [apply rms_one, (rm_upd_s s5 ca); [apply Hsup|apply Hsum|exact F7]|].
    pose proof (proj1 (upd_s_block _ _ _ F7)) as B6. pose proof (dist_s_block _ _ _ _ F8 B6) as B7. pose proof (dist_s_block _ _ _ _ F9 B7) as B8. pose proof (dist_s_block _ _ _ _ F10 B8) as B9.
    eapply rms_app0; [eapply rms_dist_s; [exact B6|exact F8]|]. eapply rms_app0; [eapply rms_dist_s; [exact B7|exact F9]|]. eapply rms_app0; [eapply rms_dist_s; [exact B8|exact F10]|].
    match goal with |- rmoves s9 0 (put_dep (put_dep (put_dep s9 ca w ?d1) ca liq ?d2) ca _ ?d3) =>
      set (s10 := put_dep s9 ca w d1) in *; set (s11 := put_dep s10 ca liq d2) in * end.
    assert (Hoth : forall t v d k', k' <> (ca, v) -> ln_deps (put_dep t ca v d) !! k' = ln_deps t !! k') by (intros t' v d k' Hk; cbn; rewrite lookup_insert_ne by congruence; reflexivity).
    assert (HM : is_Some (ln_mkts s9 !! ca)).
    { rewrite (mkts_core _ _ (dist_supplier_core _ _ _ _ F10)), (mkts_core _ _ (dist_supplier_core _ _ _ _ F9)), (mkts_core _ _ (dist_supplier_core _ _ _ _ F8)), (mkts_core _ _ (upd_supply_index_core _ _ _ F7)).
      change (ln_mkts s5) with (ln_mkts s2). rewrite (mkts_core _ _ (dist_borrower_core _ _ _ _ F2)), (mkts_core _ _ (upd_borrow_index_core _ _ _ F1)).
      destruct (ensure_active_ok s _ _ E2) as [Hm _]. rewrite Hm. eauto. }
    eapply rms_app0; [apply rms_one, (rm_dep s9 ca w s10); [repeat split|exact Q2| |apply Hoth|exact HM|reflexivity|exact B9|left; reflexivity]|].
    { unfold s10. rewrite vouchers_put, decide_True by auto. apply F13. }
    eapply rms_app0; [apply rms_one, (rm_dep s10 ca liq s11); [repeat split|exact Q1| |apply Hoth|exact HM|reflexivity|exact B9|left; reflexivity]|].
    { unfold s11. rewrite vouchers_put, decide_True by auto. apply F16. }
    apply rms_one, (rm_dep s11 ca (inc_acct C)); [repeat split|exact Q3| |apply Hoth|exact HM|reflexivity|exact B9|left; reflexivity].
    { rewrite vouchers_put, decide_True by auto. apply F17. }
  Qed.
  Lemma collect_moves s a w s' : linv s -> collect_reward s a w = Ok s' -> rmoves s 0 s'.
  Proof.
    intros Hi H. unfold collect_reward in H. bstep H s1 E1. bstep H s2 E2. bstep H s3 E3.
    eapply rms_app0; [eapply rms_upd_s; eauto|]. eapply rms_app0; [eapply rms_dist_s; eauto; eapply upd_s_block; eauto|]. eapply rms_app0; [eapply rms_upd_b; eauto|]. eapply rms_dist_b; eauto.
  Qed.
  Lemma collect_all_moves l s w s' : linv s -> collect_all s w l = Ok s' -> rmoves s 0 s'.
  Proof.
    revert s. induction l as [|a l IH]; cbn; intros s Hi H; [injection H as <-; constructor|]. bstep H s1 E.
    eapply rms_app0; [eapply collect_moves; eauto|]. apply IH; auto. eapply linv_core; [eapply collect_reward_core; eauto|exact Hi].
  Qed.
  Lemma pay_moves s w s' : pay_reward C P s w = Ok s' ->
    exists p, rmoves s p s' /\ (w <> rew_acct C -> p = bal (ln_led s) (rew_asset C) (rew_acct C) - bal (ln_led s') (rew_asset C) (rew_acct C)).
  Proof.
    unfold pay_reward. intros H. destruct (0 <? racc_of s w) eqn:Ez; [|injection H as <-; exists 0; split; [constructor|lia]].
    bstep H L E. injection H as <-. exists (racc_of s w + 0). split; [econstructor; [apply (rm_pay s w L); [lia|exact E]|constructor]|].
    intros Hw. apply transfer_spec in E as (E & _). cbn. rewrite E. unfold at_. rewrite bool_decide_true by auto. rewrite bool_decide_false by intuition congruence. lia.
  Qed.
  Lemma speed_moves s o a ss bs s' : linv s -> (forall b, is_u128 (r_ss (rew_of s b)) /\ is_u128 (r_bs (rew_of s b))) -> opt_ok is_u128 ss -> opt_ok is_u128 bs ->
    (NB -> default (r_bs (rew_of s a)) bs = 0) -> update_speed C s o a ss bs = Ok s' -> rmoves s 0 s'.
  Proof.
    intros Hi Hr Hs Hb HN H. unfold update_speed in H. bstep H u0 E0. bstep H u1 E1. cbn zeta in H. bstep H s1 E2.
    assert (is_u128 (default (r_ss (rew_of s a)) ss)) as Hs' by (destruct ss; cbn; [exact Hs|apply Hr]).
    assert (is_u128 (default (r_bs (rew_of s a)) bs)) as Hb' by (destruct bs; cbn; [exact Hb|apply Hr]).
    assert (rmoves s 0 s1) as M1.
    { destruct (_ =? _) in E2; [injection E2 as <-; constructor|]. bstep E2 t E3. injection E2 as <-.
      eapply rms_app0; [eapply rms_upd_s; eauto|]. apply rms_one. apply rm_speed_s; [exact Hs'|]. apply (upd_s_block s a t E3). }
    eapply rms_app0; [exact M1|]. destruct (_ =? _) in H; [injection H as <-; constructor|]. bstep H t E3. injection H as <-.
    eapply rms_app0; [eapply rms_upd_b; eauto|]. apply rms_one. apply rm_speed_b; [exact Hb'|exact HN].
  Qed.

  Lemma exec_moves s c s' : cfg_ok C -> call_ok C c -> linv s -> (forall b, is_u128 (r_ss (rew_of s b)) /\ is_u128 (r_bs (rew_of s b))) ->
    (match c with LTransferPt _ _ _ _ => False | LSpeed _ a _ bs => NB -> default (r_bs (rew_of s a)) bs = 0 | _ => True end) -> loans_exec C P s c = Ok s' ->
    exists p, rmoves s p s' /\
      match claimer c with
      | None => p = 0
      | Some w => w <> rew_acct C -> p = bal (ln_led s) (rew_asset C) (rew_acct C) - bal (ln_led s') (rew_asset C) (rew_acct C)
      end.
  Proof.
    intros HC Hc Hi Hr Hn H. pose proof (exec_linv C P s c s' Hc Hi H) as Hi'.
    destruct c; cbn [claimer]; cbn in Hc, H; try (exists 0; split; [|reflexivity]).
    - unfold add_market in H. bstep H u0 E0. bstep H u1 E1. bstep H u2 E2. bstep H u3 E3. bstep H u4 E4. bstep H u5 E5.
      bstep H u6 E6. bstep H u7 E7. bstep H u8 E8. bstep H u9 E9. injection H as <-. eapply rms_market; [repeat split|reflexivity|intros b; rewrite supply_put_acc; destruct (decide _) as [->|]; reflexivity|reflexivity].
    - unfold activate_market in H. bstep H u0 E0. bstep H mk E1. injection H as <-. eapply rms_market; [repeat split|reflexivity|sup_tac|reflexivity].
    - unfold update_rate_model in H. bstep H u0 E0. bstep H u1 E2. bstep H mk E1. injection H as <-. eapply rms_market; [repeat split|reflexivity|sup_tac|reflexivity].
    - unfold update_market in H. bstep H u0 E0. bstep H mk E1. bstep H u1 E2. bstep H u2 E3. bstep H u3 E4. bstep H u4 E5. injection H as <-. eapply rms_market; [repeat split|reflexivity|sup_tac|reflexivity].
    - unfold force_update_market in H. bstep H u0 E0. bstep H u1 E2. bstep H u2 E3. bstep H mk0 E1. injection H as <-. eapply rms_market; [repeat split|reflexivity|sup_tac|reflexivity].
    - unfold add_reward in H. bstep H u0 E0. bstep H L E1. injection H as <-. apply rms_neutral; [repeat split|reflexivity|sup_tac|reflexivity].
    - unfold withdraw_missing in H. bstep H u0 E0. bstep H u1 E2. bstep H L E1. injection H as <-. apply rms_neutral; [repeat split|reflexivity|sup_tac|reflexivity].
    - eapply speed_moves; eauto; apply Hc.
    - unfold claim_reward in H. bstep H s1 E1. pose proof (collect_all_core _ _ _ _ E1) as (R & E & X & Y & Z & Hs). apply collect_all_moves in E1; auto.
      destruct (pay_moves s1 w s' H) as (p & M & Hp). exists (0 + p). split; [eapply rms_app; eauto|]. intros Hw. rewrite Z.add_0_l, (Hp Hw), Hs. reflexivity.
    - unfold claim_reward_for in H. bstep H s1 E1. pose proof (collect_reward_core _ _ _ _ E1) as (R & E & X & Y & Z & Hs). apply collect_moves in E1; auto.
      destruct (pay_moves s1 w s' H) as (p & M & Hp). exists (0 + p). split; [eapply rms_app; eauto|]. intros Hw. rewrite Z.add_0_l, (Hp Hw), Hs. reflexivity.
    - eapply mint_moves; eauto.
    - apply fst_res_ok in H as [x H]. unfold redeem in H. bstep H u0 E0. eapply do_redeem_moves; eauto.
    - apply fst_res_ok in H as [x H]. eapply do_redeem_moves; eauto.
    - apply fst_res_ok in H as [x H]. eapply do_redeem_all_moves; eauto.
    - eapply borrow_moves; eauto.
    - eapply repay_moves; eauto.
    - unfold repay_all in H. bstep H mk E1. bstep H s1 E2. bstep H b E3. pose proof (accrue_linv C _ _ _ Hi E2) as Hi1.
      eapply rms_app0; [eapply rms_accrue; eauto|]. eapply repay_moves; eauto.
    - unfold collateral_asset in H. bstep H u0 E0. bstep H d E1. bstep H u1 E2. apply do_collateral_eff in H as (mk & d' & _ & _ & Hd & -> & _).
      apply rms_one. eapply (rm_flag s a w d'); [repeat split|exact Hd|reflexivity|reflexivity|reflexivity].
    - apply do_collateral_eff in H as (mk & d' & _ & _ & Hd & -> & _). apply rms_one. eapply (rm_flag s a w d'); [repeat split|exact Hd|reflexivity|reflexivity|reflexivity].
    - eapply liquidate_moves; eauto.
    - destruct Hn.
    - unfold add_reserves in H. bstep H u0 E0. bstep H mk E1. bstep H L E2. bstep H t E3. injection H as <-. apply rms_neutral; [repeat split|reflexivity|sup_tac|reflexivity].
    - unfold reduce_reserves in H. bstep H u0 E0. bstep H mk E1. bstep H u1 E4. bstep H t E3. bstep H L E2. injection H as <-. apply rms_neutral; [repeat split|reflexivity|sup_tac|reflexivity].
    - unfold reduce_incentive in H. bstep H u0 E0. bstep H u1 E1. bstep H mk E2. bstep H r E3. bstep H v E4.
      bstep H p E5. destruct p as [s1 x]. bstep H L E6. injection H as <-. eapply rms_app0; [eapply redeem_voucher_moves; eauto; [apply Hi'|destruct (ensure_active_ok s _ mk E2) as [Hm _]; rewrite Hm; eauto]|].
      apply rms_neutral; [repeat split|reflexivity|sup_tac|reflexivity].
    - unfold update_free in H. bstep H u0 E0. injection H as <-. apply rms_neutral; [repeat split|reflexivity|sup_tac|reflexivity].
    - apply fst_res_ok in H as [x H]. unfold force_redeem, redeem in H. bstep H u0 E0. bstep H u1 E1. eapply do_redeem_moves; eauto.
    - apply fst_res_ok in H as [x H]. unfold force_redeem_all in H. bstep H u0 E0. eapply do_redeem_all_moves; eauto.
    - bstep H s1 E1. bstep H b E2. injection H as <-. eapply rms_accrue; eauto.
  Qed.
End moves.
