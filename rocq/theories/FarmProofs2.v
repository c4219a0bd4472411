(** * FarmProofs2: effects of every farming call; all preserve the invariant. *)
From Verif Require Import Base MapSum Ledger AmmModel StreamSpec FarmModel FarmSpec FarmProofs.

Section ops.
  Context (C : farm_cfg) (P : policy).


  Lemma deposit_full s w k amount s' :
    farm_inv C s -> user_of C w -> 0 <= amount -> f_deposit C P s w k amount = Ok s' ->
    exists p p', let q := pos_get s k w in
      fpools s !! k = Some p /\ fp_active p = true /\ 0 < amount /\
      fpools s' = <[k := p']> (fpools s) /\ fp_total p' = fp_total p + amount /\ fp_rps p' = rps_at p (f_now s) /\
      fp_last p' = Z.min (f_now s) (fp_finish p) /\ fp_finish p' = fp_finish p /\ fp_rate p' = fp_rate p /\ fp_cool p' = fp_cool p /\
      fp_unlock p' = fp_unlock p /\
      fposns s' = <[(k, w) := mkFPos (ps_dep q + amount) (ps_locks q) (claimable p q (f_now s)) (rps_at p (f_now s))]> (fposns s) /\
      (forall a x, bal (f_led s') a x = bal (f_led s) a x - at_ k.1.1 w a x amount + at_ k.1.1 (pool_acct C k.1.1) a x amount) /\
      f_now s' = f_now s /\ f_log s' = EDeposited w k amount :: f_log s /\ farm_inv C s'.
  Proof.
    intros HI Hw Hamt H. unfold f_deposit in H. bstep H p0 E0. bstep H u0 E1. bstep H s1 E2. bstep H p1 E3. bstep H u1 E4.
    bstep H L E5. bstep H t E6. bstep H d E7. injection H as <-. apply ok_or_ok in E0, E3.
    destruct (update_reward_user C s w k s1 HI E2) as (p & p1' & F0 & F1 & F2 & F3 & F4 & F5 & F6 & F7 & F8 & F9 & F10 & F11 & F12 & F13 & F14 & HI1).
    rewrite F1, lookup_insert in E3. injection E3 as <-. rename p1' into p1.
    destruct E6 as [-> E6]. destruct E7 as [-> E7].
    set (q := pos_get s k w) in *.
    pose proof (transfer_spec _ _ _ _ _ _ _ _ E5) as (T1 & T2 & T3). rewrite F12 in T1, T2.
    exists p, (set_total p1 (fp_total p1 + amount)). cbn zeta. fold q.
    cbn [f_event f_set_led set_pos set_pool fpools fposns f_led f_now f_log set_total fp_total fp_rps fp_last fp_finish fp_rate fp_cool fp_unlock].
    split; [exact F0|]. split; [congruence|]. split; [lia|].
    split; [rewrite F1, insert_insert; reflexivity|]. split; [lia|]. do 6 (split; [assumption|]).
    assert (mkFPos (ps_dep (pos_get s1 k w) + amount) (ps_locks (pos_get s1 k w)) (ps_reward (pos_get s1 k w)) (ps_paid (pos_get s1 k w)) =
            mkFPos (ps_dep q + amount) (ps_locks q) (claimable p q (f_now s)) (rps_at p (f_now s))) as Hq by (rewrite F10; reflexivity).
    split; [rewrite Hq, F11, insert_insert; reflexivity|]. split; [exact T1|].
    split; [auto|]. split; [rewrite F14; reflexivity|].
    pose proof (pos_get_ok C s1 k p1 w HI1 ltac:(rewrite F1; apply lookup_insert)) as [Q1 Q2 Q3 Q4].
    destruct (fi_pools _ _ HI1 k p1 ltac:(rewrite F1; apply lookup_insert)).
    apply (inv_change C s1 k p1 w _ (set_total p1 (fp_total p1 + amount)) L [EDeposited w k amount]); cbn [set_total fp_last fp_finish fp_rate fp_rps fp_cool fp_total ps_dep]; auto; try lia.
    - rewrite F1. apply lookup_insert.
    - split; cbn; auto; lia.
    - intros e [<-|[]]. reflexivity.
    - unfold wt; cbn. rewrite F10. cbn. rewrite F2. lia.
    - eapply transfer_wf; [|apply (fi_wf _ _ HI1)|exact E5]. lia.
    - intros a. rewrite T2. apply (fi_iss _ _ HI).
    - intros a. change (lsum (ev_claimed k) [EDeposited w k amount]) with 0. unfold locked. cbn [ps_locks ps_dep].
      rewrite T1, F12. unfold at_. specialize (Hw a).
      repeat case_bool_decide; destruct_and?; subst; try congruence; try tauto; lia.
  Qed.

  Lemma withdraw_full s w k amount s' :
    farm_inv C s -> user_of C w -> 0 <= amount -> f_withdraw C P s w k amount = Ok s' ->
    exists p p', let q := pos_get s k w in
      let paid := if fp_cool p =? 0 then amount else 0 in
      fpools s !! k = Some p /\ 0 < amount <= ps_dep q /\ fp_unlock p <= f_now s /\
      fpools s' = <[k := p']> (fpools s) /\ fp_total p' = fp_total p - amount /\ fp_rps p' = rps_at p (f_now s) /\
      fp_last p' = Z.min (f_now s) (fp_finish p) /\ fp_finish p' = fp_finish p /\ fp_rate p' = fp_rate p /\ fp_cool p' = fp_cool p /\
      fp_unlock p' = fp_unlock p /\
      fposns s' = <[(k, w) := mkFPos (ps_dep q - amount) (if fp_cool p =? 0 then ps_locks q else ps_locks q ++ [(amount, f_now s)])
                               (claimable p q (f_now s)) (rps_at p (f_now s))]> (fposns s) /\
      (forall a x, bal (f_led s') a x = bal (f_led s) a x - at_ k.1.1 (pool_acct C k.1.1) a x paid + at_ k.1.1 w a x paid) /\
      f_now s' = f_now s /\ f_log s' = EWithdrew w k amount :: f_log s /\ farm_inv C s'.
  Proof.
    intros HI Hw Hamt H. unfold f_withdraw in H. bstep H p0 E0. bstep H u0 E1. bstep H u1 E1'. bstep H s1 E2. bstep H p1 E3. bstep H u2 E4.
    bstep H t E6. bstep H d E7. apply rbind_ok in H as ([L locks] & E5 & H). injection H as <-. apply ok_or_ok in E0, E3.
    destruct (update_reward_user C s w k s1 HI E2) as (p & p1' & F0 & F1 & F2 & F3 & F4 & F5 & F6 & F7 & F8 & F9 & F10 & F11 & F12 & F13 & F14 & HI1).
    rewrite F1, lookup_insert in E3. injection E3 as <-. rename p1' into p1.
    destruct E6 as [-> E6]. destruct E7 as [-> E7].
    pose proof (pos_get_ok C s1 k p1 w HI1 ltac:(rewrite F1; apply lookup_insert)) as [Q1 Q2 Q3 Q4].
    set (q := pos_get s k w) in *.
    exists p, (set_total p1 (fp_total p1 - amount)). cbn zeta. fold q.
    assert (locks = (if fp_cool p =? 0 then ps_locks q else ps_locks q ++ [(amount, f_now s)]) /\
      (forall a x, bal L a x = bal (f_led s) a x - at_ k.1.1 (pool_acct C k.1.1) a x (if fp_cool p =? 0 then amount else 0)
                    + at_ k.1.1 w a x (if fp_cool p =? 0 then amount else 0)) /\
      ledger_wf L /\ (forall a, iss L a = iss (f_led s) a) /\
      (fp_cool p =? 0 = false -> Z.of_nat (length (ps_locks q)) < max_locks C)) as (-> & T1 & TW & T2 & TL).
    { rewrite F7, F10, F12, F13 in E5. cbn [ps_locks] in E5. destruct (fp_cool p =? 0).
      - bstep E5 L1 E8. injection E5 as <- <-. pose proof (transfer_spec _ _ _ _ _ _ _ _ E8) as (T1 & T2 & T3).
        split; [auto|]. split; [exact T1|]. split; [|split; [auto|discriminate]]. eapply transfer_wf; [|apply (fi_wf _ _ HI)|exact E8]. lia.
      - destruct (_ <? _) eqn:El; [|discriminate]. injection E5 as <- <-. split; [auto|]. split; [|split; [apply (fi_wf _ _ HI)|split; [auto|lia]]].
        intros a x. unfold at_. repeat case_bool_decide; lia. }
    cbn [f_event f_set_led set_pos set_pool fpools fposns f_led f_now f_log set_total fp_total fp_rps fp_last fp_finish fp_rate fp_cool fp_unlock].
    split; [exact F0|]. split; [lia|]. split; [rewrite F13, F8 in E4; lia|].
    split; [rewrite F1, insert_insert; reflexivity|]. split; [lia|]. do 6 (split; [assumption|]).
    assert (forall lk, mkFPos (ps_dep (pos_get s1 k w) - amount) lk (ps_reward (pos_get s1 k w)) (ps_paid (pos_get s1 k w)) =
            mkFPos (ps_dep q - amount) lk (claimable p q (f_now s)) (rps_at p (f_now s))) as Hq by (intros; rewrite F10; reflexivity).
    split; [rewrite Hq, F11, insert_insert; reflexivity|]. split; [exact T1|].
    split; [auto|]. split; [rewrite F14; reflexivity|].
    destruct (fi_pools _ _ HI1 k p1 ltac:(rewrite F1; apply lookup_insert)).
    apply (inv_change C s1 k p1 w _ (set_total p1 (fp_total p1 - amount)) L [EWithdrew w k amount]); cbn [set_total fp_last fp_finish fp_rate fp_rps fp_cool fp_total ps_dep]; auto; try lia.
    - rewrite F1. apply lookup_insert.
    - split; cbn; auto; try lia. destruct Q4 as [Q4 Q5]. rewrite F10 in Q4, Q5. cbn in Q4, Q5. unfold locks_ok. cbn [ps_locks].
      rewrite F13 in *. destruct (fp_cool p =? 0); split; auto.
      + intros it. rewrite in_app_iff. intros [?|[<-|[]]]; auto. cbn. pose proof (fi_now _ _ HI). lia.
      + rewrite app_length. cbn. specialize (TL eq_refl). lia.
    - intros e [<-|[]]. reflexivity.
    - unfold wt; cbn. rewrite F10. cbn. rewrite F2. lia.
    - intros a. rewrite T2. apply (fi_iss _ _ HI).
    - intros a. change (lsum (ev_claimed k) [EWithdrew w k amount]) with 0. unfold locked. cbn [ps_locks ps_dep]. rewrite T1, F12, F10. cbn [ps_locks ps_dep]. unfold at_. specialize (Hw a).
      destruct (fp_cool p =? 0); rewrite ?lsum_app; cbn [lsum foldr fst];
      repeat case_bool_decide; destruct_and?; subst; try congruence; try tauto; lia.
  Qed.

  (** sums over lock items *)
  Definition matured_sum (p : fpool) (now : Z) (l : list (Z * Z)) : Z := lsum (fun it => if matured p now it then it.1 else 0) l.
  Lemma sum_matured_spec p now l acc r : sum_matured p now l acc = Ok r -> r = acc + matured_sum p now l.
  Proof.
    revert acc. induction l as [|it l IH]; intros acc H; cbn in H.
    - injection H as <-. unfold matured_sum, lsum. cbn. lia.
    - change (matured_sum p now (it :: l)) with ((if matured p now it then it.1 else 0) + matured_sum p now l).
      destruct (matured p now it).
      + bstep H a E. destruct E as [-> E]. apply IH in H. lia.
      + apply IH in H. lia.
  Qed.
  Lemma sum_matured_ok p now l acc : 0 <= acc -> (forall it, In it l -> 0 < it.1 /\ 0 <= it.2 <= now) ->
    acc + matured_sum p now l <= U128MAX -> sum_matured p now l acc = Ok (acc + matured_sum p now l).
  Proof.
    revert acc. induction l as [|it l IH]; intros acc H0 H1 H2; cbn [sum_matured].
    - f_equal. unfold matured_sum, lsum. cbn. lia.
    - change (matured_sum p now (it :: l)) with ((if matured p now it then it.1 else 0) + matured_sum p now l) in *.
      assert (0 <= matured_sum p now l) as Hn.
      { assert (forall x, In x l -> 0 < x.1 /\ 0 <= x.2 <= now) as Hl by (intros; apply H1; right; auto). clear -Hl.
        induction l as [|x l IH]; [unfold matured_sum, lsum; cbn; lia|].
        change (matured_sum p now (x :: l)) with ((if matured p now x then x.1 else 0) + matured_sum p now l).
        assert (0 <= matured_sum p now l) by (apply IH; intros; apply Hl; right; auto).
        destruct (Hl x (or_introl eq_refl)). destruct (matured p now x); lia. }
      destruct (H1 it (or_introl eq_refl)) as [Hp _].
      destruct (matured p now it).
      + unfold checked_add. assert (chk (acc + it.1) = Some (acc + it.1)) as -> by (apply chk_some; lia). cbn [ok_or rbind].
        rewrite IH; [f_equal; lia|lia|intros; apply H1; right; auto|lia].
      + rewrite IH; [f_equal; lia|lia|intros; apply H1; right; auto|lia].
  Qed.
  Lemma locked_split p now l :
    lsum fst l = matured_sum p now l + lsum fst (List.filter (fun it => negb (matured p now it)) l).
  Proof.
    induction l as [|it l IH]; [reflexivity|].
    change (lsum fst (it :: l)) with (it.1 + lsum fst l).
    change (matured_sum p now (it :: l)) with ((if matured p now it then it.1 else 0) + matured_sum p now l).
    cbn [List.filter]. destruct (matured p now it); cbn [negb].
    - lia.
    - change (lsum fst (it :: List.filter (fun it => negb (matured p now it)) l)) with (it.1 + lsum fst (List.filter (fun it => negb (matured p now it)) l)). lia.
  Qed.
  Lemma filter_length_le {A} (f : A -> bool) l : (length (List.filter f l) <= length l)%nat.
  Proof. induction l; cbn; auto. destruct (f a); cbn; lia. Qed.

  Lemma redeem_full s w k s' :
    farm_inv C s -> user_of C w -> f_redeem C P s w k = Ok s' ->
    exists p, let q := pos_get s k w in let due := matured_sum p (f_now s) (ps_locks q) in
      fpools s !! k = Some p /\ 0 <= due /\ fpools s' = fpools s /\
      fposns s' = <[(k, w) := mkFPos (ps_dep q) (List.filter (fun it => negb (matured p (f_now s) it)) (ps_locks q)) (ps_reward q) (ps_paid q)]> (fposns s) /\
      (forall a x, bal (f_led s') a x = bal (f_led s) a x - at_ k.1.1 (pool_acct C k.1.1) a x due + at_ k.1.1 w a x due) /\
      f_now s' = f_now s /\ f_log s' = ERedeem w k due :: f_log s /\ farm_inv C s'.
  Proof.
    intros HI Hw H. unfold f_redeem in H. bstep H p E0. bstep H total E1. bstep H L E2. injection H as <-. apply ok_or_ok in E0.
    apply sum_matured_spec in E1. rewrite Z.add_0_l in E1.
    set (q := pos_get s k w) in *. exists p. cbn zeta. fold q.
    pose proof (pos_get_ok C s k p w HI E0) as [Q1 Q2 Q3 [Q4 Q5]]. fold q in Q1, Q2, Q3, Q4, Q5.
    assert (0 <= total) as Hnn.
    { subst total. clear -Q4. induction (ps_locks q) as [|x l IH]; [unfold matured_sum, lsum; cbn; lia|].
      change (matured_sum p (f_now s) (x :: l)) with ((if matured p (f_now s) x then x.1 else 0) + matured_sum p (f_now s) l).
      assert (0 <= matured_sum p (f_now s) l) by (apply IH; intros; apply Q4; right; auto).
      destruct (Q4 x (or_introl eq_refl)). destruct (matured p (f_now s) x); lia. }
    assert ((forall a x, bal L a x = bal (f_led s) a x - at_ k.1.1 (pool_acct C k.1.1) a x total + at_ k.1.1 w a x total) /\
            ledger_wf L /\ (forall a, iss L a = iss (f_led s) a)) as (T1 & TW & T2).
    { destruct (0 <? total) eqn:E.
      - pose proof (transfer_spec _ _ _ _ _ _ _ _ E2) as (T1 & T2 & T3). split; [auto|]. split; [|auto].
        eapply transfer_wf; [|apply (fi_wf _ _ HI)|exact E2]. lia.
      - injection E2 as <-. assert (total = 0) as -> by lia. split; [|split; [apply (fi_wf _ _ HI)|auto]].
        intros. unfold at_. repeat case_bool_decide; lia. }
    cbn [f_event f_set_led set_pos fpools fposns f_led f_now f_log]. rewrite <- E1.
    split; [auto|]. split; [lia|]. do 2 (split; [reflexivity|]). split; [exact T1|]. do 2 (split; [reflexivity|]).
    assert (<[k := p]> (fpools s) = fpools s) as Hid by (apply insert_id; auto).
    assert (farm_inv C (mkFarm (<[k := p]> (fpools s)) (<[(k, w) := mkFPos (ps_dep q) (List.filter (fun it => negb (matured p (f_now s) it)) (ps_locks q)) (ps_reward q) (ps_paid q)]> (fposns s)) L (f_now s) ([ERedeem w k total] ++ f_log s))) as HI2.
    { destruct (fi_pools _ _ HI k p E0).
      apply (inv_change C s k p w _ p L [ERedeem w k total]); auto; cbn [ps_dep]; fold q; try lia.
      - split; cbn; auto. split; cbn [ps_locks].
        + intros it Hit. apply filter_In in Hit as [Hit _]. auto.
        + pose proof (filter_length_le (fun it => negb (matured p (f_now s) it)) (ps_locks q)). lia.
      - intros e [<-|[]]. reflexivity.
      - unfold wt; cbn. fold q. lia.
      - intros a. rewrite T2. apply (fi_iss _ _ HI).
      - intros a. unfold locked. cbn [ps_locks]. rewrite (locked_split p (f_now s) (ps_locks q)), <- E1. cbn [lsum foldr ev_claimed].
        rewrite T1. unfold at_. specialize (Hw a). repeat case_bool_decide; destruct_and?; subst; try congruence; try tauto; lia. }
    rewrite Hid in HI2. exact HI2.
  Qed.

  Lemma claim_full s w k s' :
    farm_inv C s -> user_of C w -> f_claim C P s w k = Ok s' ->
    exists p p', let q := pos_get s k w in let rew := claimable p q (f_now s) in
      fpools s !! k = Some p /\ 0 <= rew /\
      fpools s' = <[k := p']> (fpools s) /\ fp_total p' = fp_total p /\ fp_rps p' = rps_at p (f_now s) /\
      fp_last p' = Z.min (f_now s) (fp_finish p) /\ fp_finish p' = fp_finish p /\ fp_rate p' = fp_rate p /\ fp_cool p' = fp_cool p /\
      fp_unlock p' = fp_unlock p /\
      fposns s' = <[(k, w) := mkFPos (ps_dep q) (ps_locks q) 0 (rps_at p (f_now s))]> (fposns s) /\
      (forall a x, bal (f_led s') a x = bal (f_led s) a x - at_ k.1.2 (pool_acct C k.1.2) a x rew + at_ k.1.2 w a x rew) /\
      f_now s' = f_now s /\ f_log s' = ERewardPaid w k rew :: f_log s /\ farm_inv C s'.
  Proof.
    intros HI Hw H. unfold f_claim in H. bstep H p0 E0. bstep H s1 E2. apply rbind_ok in H as ([L q'] & E5 & H). injection H as <-. apply ok_or_ok in E0.
    destruct (update_reward_user C s w k s1 HI E2) as (p & p1 & F0 & F1 & F2 & F3 & F4 & F5 & F6 & F7 & F8 & F9 & F10 & F11 & F12 & F13 & F14 & HI1).
    pose proof (pos_get_ok C s1 k p1 w HI1 ltac:(rewrite F1; apply lookup_insert)) as [Q1 Q2 Q3 Q4].
    set (q := pos_get s k w) in *. rewrite F10 in Q1, Q2, Q3, E5. cbn [ps_dep ps_reward ps_paid ps_locks] in Q1, Q2, Q3, E5.
    set (rew := claimable p q (f_now s)) in *.
    exists p, p1. cbn zeta. fold q. fold rew.
    assert (q' = mkFPos (ps_dep q) (ps_locks q) 0 (rps_at p (f_now s)) /\
      (forall a x, bal L a x = bal (f_led s) a x - at_ k.1.2 (pool_acct C k.1.2) a x rew + at_ k.1.2 w a x rew) /\
      ledger_wf L /\ (forall a, iss L a = iss (f_led s) a)) as (-> & T1 & TW & T2).
    { rewrite F12 in E5. destruct (0 <? rew) eqn:E.
      - bstep E5 L1 E8. injection E5 as <- <-. pose proof (transfer_spec _ _ _ _ _ _ _ _ E8) as (T1 & T2 & T3).
        split; [auto|]. split; [exact T1|]. split; [|auto]. eapply transfer_wf; [|apply (fi_wf _ _ HI)|exact E8]. lia.
      - injection E5 as <- <-. assert (rew = 0) as E0' by lia. rewrite E0'. split; [auto|]. split; [|split; [apply (fi_wf _ _ HI)|auto]].
        intros a x. unfold at_. repeat case_bool_decide; lia. }
    cbn [f_event f_set_led set_pos set_pool fpools fposns f_led f_now f_log].
    split; [exact F0|]. split; [lia|]. split; [exact F1|]. do 7 (split; [assumption|]).
    split; [rewrite F11, insert_insert; reflexivity|]. split; [exact T1|]. split; [auto|].
    split; [rewrite F14, F10; reflexivity|].
    assert (<[k := p1]> (fpools s1) = fpools s1) as Hid by (apply insert_id; rewrite F1; apply lookup_insert).
    rewrite F10. cbn [ps_reward].
    assert (farm_inv C (mkFarm (<[k := p1]> (fpools s1)) (<[(k, w) := mkFPos (ps_dep q) (ps_locks q) 0 (rps_at p (f_now s))]> (fposns s1)) L (f_now s1) ([ERewardPaid w k rew] ++ f_log s1))) as HI2.
    { destruct (fi_pools _ _ HI1 k p1 ltac:(rewrite F1; apply lookup_insert)).
      assert (lsum (ev_claimed k) [ERewardPaid w k rew] = rew) as Hev by (cbn; rewrite bool_decide_true by auto; lia).
      apply (inv_change C s1 k p1 w _ p1 L [ERewardPaid w k rew]); auto; rewrite ?F10, ?Hev; cbn [ps_dep]; try lia.
      - rewrite F1. apply lookup_insert.
      - split; cbn [ps_dep ps_reward ps_paid]; auto; try lia. rewrite F10 in Q4. exact Q4.
      - intros e [<-|[]]. reflexivity.
      - unfold wt. cbn [ps_reward ps_dep ps_paid]. rewrite F2. lia.
      - intros a. rewrite T2. apply (fi_iss _ _ HI).
      - intros a. unfold locked. cbn [ps_locks]. rewrite F12, T1. unfold at_. specialize (Hw a).
        repeat case_bool_decide; destruct_and?; subst; try congruence; try tauto; lia. }
    rewrite Hid in HI2. exact HI2.
  Qed.

  Lemma dispatch_full s o k payer amount duration s' :
    farm_inv C s -> user_of C payer -> 0 <= amount <= U128MAX -> 0 <= duration -> f_dispatch C P s o k payer amount duration = Ok s' ->
    exists p p', let left := if fp_finish p <=? f_now s then 0 else (fp_finish p - f_now s) * fp_rate p in
      farm_update C o = true /\
      fpools s !! k = Some p /\ 0 < duration /\ fpools s' = <[k := p']> (fpools s) /\
      fp_rate p' = (left + amount) / duration /\ fp_finish p' = f_now s + duration /\ fp_last p' = f_now s /\
      fp_rps p' = rps_at p (f_now s) /\ fp_total p' = fp_total p /\ fp_cool p' = fp_cool p /\ fp_unlock p' = fp_unlock p /\
      fposns s' = fposns s /\
      (forall a x, bal (f_led s') a x = bal (f_led s) a x - at_ k.1.2 payer a x amount + at_ k.1.2 (pool_acct C k.1.2) a x amount) /\
      f_now s' = f_now s /\ f_log s' = ERewardAdded k amount :: f_log s /\ farm_inv C s'.
  Proof.
    intros HI Hw Hamt Hdur H. unfold f_dispatch in H. bstep H u0 E0. bstep H p0 E1. bstep H u1 E2. bstep H s1 E3. bstep H p1 E4.
    bstep H rate E5. bstep H finish E6. bstep H L E7. injection H as <-. apply ok_or_ok in E1, E4.
    unfold update_reward in E3. bstep E3 p E8. bstep E3 p1' E9. injection E3 as <-. apply ok_or_ok in E8.
    cbn [set_pool fpools f_now] in *. rewrite lookup_insert in E4. injection E4 as ->.
    destruct (update_rps_inv C s k p p1 HI E8 E9) as (HI1 & F1 & F2 & F3 & F4 & F5 & F6 & F7 & F8 & F9).
    exists p. eexists. cbn zeta. cbn [set_pool fpools f_event f_set_led fposns f_led f_now f_log].
    split; [auto|]. split; [auto|]. split; [lia|]. split; [rewrite insert_insert; reflexivity|].
    cbn [fp_rate fp_finish fp_last fp_rps fp_total fp_cool fp_unlock].
    assert (finish = f_now s + duration) as -> by (destruct (_ <? _) in E6; [discriminate|injection E6 as <-; auto]).
    set (left := if fp_finish p <=? f_now s then 0 else (fp_finish p - f_now s) * fp_rate p).
    pose proof (fi_pools _ _ HI1 k p1 ltac:(cbn; apply lookup_insert)) as PO1.
    assert (rate = (left + amount) / duration /\ 0 <= left) as [-> Hleft].
    { unfold left. rewrite F4, F5 in E5. destruct (fp_finish p <=? f_now s) eqn:E.
      - apply ok_or_ok in E5. apply checked_div_some in E5 as [-> _]. split; [f_equal|]; lia.
      - bstep E5 rm G1. destruct G1 as [-> G1]. bstep E5 lo G2. destruct G2 as [-> G2]. bstep E5 tt G3. destruct G3 as [-> G3].
        apply ok_or_ok in E5. apply checked_div_some in E5 as [-> _]. split; [auto|lia]. }
    do 3 (split; [reflexivity|]). do 4 (split; [assumption|]). split; [reflexivity|].
    assert ((forall a x, bal L a x = bal (f_led s) a x - at_ k.1.2 payer a x amount + at_ k.1.2 (pool_acct C k.1.2) a x amount) /\
            ledger_wf L /\ (forall a, iss L a = iss (f_led s) a)) as (T1 & TW & T2).
    { destruct (0 <? amount) eqn:E.
      - cbn [set_pool f_led] in E7. pose proof (transfer_spec _ _ _ _ _ _ _ _ E7) as (T1 & T2 & T3). split; [auto|]. split; [|auto].
        eapply transfer_wf; [|apply (fi_wf _ _ HI)|exact E7]. lia.
      - injection E7 as <-. assert (amount = 0) as -> by lia. split; [|split; [apply (fi_wf _ _ HI)|auto]].
        intros. unfold at_. cbn. repeat case_bool_decide; lia. }
    split; [exact T1|]. do 2 (split; [reflexivity|]).
    (* invariant *)
    unfold f_event, f_set_led, set_pool at 1. cbn [set_pool fpools fposns f_led f_now f_log]. rewrite insert_insert.
    set (p2 := mkFPool _ _ _ _ _ _ _ _ _).
    set (s2 := mkFarm _ _ _ _ _).
    assert (forall k', claimed s2 k' = claimed s k') as HCl by (intros; unfold claimed, s2; cbn [f_log]; reflexivity).
    assert (forall k', dispatched s2 k' = dispatched s k' + (if bool_decide (k = k') then amount else 0)) as HDi.
    { intros. unfold dispatched, s2. cbn [f_log lsum foldr ev_dispatched]. case_bool_decide; unfold lsum; lia. }
    destruct HI1. destruct PO1.
    assert (0 < duration) as Hd0 by lia.
    split; cbn [f_led f_now fpools fposns f_log s2]; auto.
    - intros a. rewrite T2. apply (FarmProofs.fi_iss _ _ HI).
    - intros k' p00. destruct (decide (k' = k)) as [->|Hne].
      + rewrite lookup_insert. intros [= <-]. split; cbn [p2 fp_rate fp_finish fp_last fp_rps fp_total fp_cool]; try lia.
        * exact po_total.
        * apply Z.div_pos; lia.
        * cbn [f_now s2]. lia.
        * rewrite HCl, HDi, bool_decide_true by auto.
          change (pool_sum s2 k (wt (fp_rps p1))) with (pool_sum (set_pool s k p1) k (wt (fp_rps p1))).
          change (claimed (set_pool s k p1) k) with (claimed s k) in po_budget. change (dispatched (set_pool s k p1) k) with (dispatched s k) in po_budget.
          rewrite F2, F4, F5 in po_budget.
          replace (f_now s + duration - f_now s) with duration by lia.
          pose proof (div_le_mul (left + amount) duration Hd0) as Hdiv.
          assert (fp_rate p * (fp_finish p - Z.min (f_now s) (fp_finish p)) = left) as Hl.
          { unfold left. destruct (fp_finish p <=? f_now s) eqn:E.
            - replace (Z.min (f_now s) (fp_finish p)) with (fp_finish p) by lia. lia.
            - replace (Z.min (f_now s) (fp_finish p)) with (f_now s) by lia. lia. }
          rewrite Hl in po_budget. pose proof SHARE_pos.
          assert (SHARE * ((left + amount) / duration * duration) <= SHARE * (left + amount)) by (apply Z.mul_le_mono_nonneg_l; lia). lia.
      + rewrite lookup_insert_ne by auto. intros E. destruct (fi_pools k' p00) as [A1 A2 A3 A4 A5 A6 A7 A8]; [cbn; rewrite lookup_insert_ne; auto|].
        split; auto. rewrite HCl, HDi, bool_decide_false by auto.
        change (claimed (set_pool s k p1) k') with (claimed s k') in A8. change (dispatched (set_pool s k p1) k') with (dispatched s k') in A8.
        change (pool_sum s2 k' (wt (fp_rps p00))) with (pool_sum (set_pool s k p1) k' (wt (fp_rps p00))). lia.
    - intros k' w q0 E. destruct (fi_posns k' w q0 E) as (p00 & Ep & [B1 B2 B3 B4]). cbn [set_pool fpools] in Ep.
      destruct (decide (k' = k)) as [->|Hne].
      + rewrite lookup_insert in *. injection Ep as <-. exists p2. split; auto. split; auto.
      + rewrite lookup_insert_ne in * by auto. exists p00. split; auto. split; auto.
    - intros e [<-|He]; [cbn; rewrite lookup_insert; eauto|]. destruct (fi_log e He) as [x Hx]. cbn [set_pool fpools] in Hx.
      destruct (decide (ev_key e = k)) as [->|Hne]; [rewrite lookup_insert; eauto|]. rewrite lookup_insert_ne in * by auto. eauto.
    - intros a. assert (reward_liability s2 a = reward_liability s a + (if bool_decide (k.1.2 = a) then amount else 0)) as HRL.
      { change (reward_liability s2 a) with (msum (fun (k0 : Z*Z*Z) (_ : fpool) => if bool_decide (k0.1.2 = a) then dispatched s2 k0 - claimed s2 k0 else 0) (<[k := p2]> (fpools s))).
        rewrite (msum_insert_same (fun k0 => if bool_decide (k0.1.2 = a) then dispatched s2 k0 - claimed s2 k0 else 0) (fpools s) k p p2 E8).
        unfold reward_liability.
        rewrite (msum_update_fun (fun (k0 : Z*Z*Z) (_ : fpool) => if bool_decide (k0.1.2 = a) then dispatched s k0 - claimed s k0 else 0)
                   (fun (k0 : Z*Z*Z) (_ : fpool) => if bool_decide (k0.1.2 = a) then dispatched s2 k0 - claimed s2 k0 else 0) (fpools s) k p E8).
        - rewrite HCl, HDi, (bool_decide_true (k = k)) by auto. repeat case_bool_decide; lia.
        - intros k' _ Hne. rewrite HCl, HDi, (bool_decide_false (k = k')) by auto. repeat case_bool_decide; lia. }
      rewrite HRL. change (principal s2 a) with (principal s a). pose proof (FarmProofs.fi_solv _ _ HI a). rewrite T1. unfold at_.
      specialize (Hw a). repeat case_bool_decide; destruct_and?; subst; try congruence; try tauto; lia.
  Qed.

  Lemma create_inv s o a r l c s' : farm_inv C s -> 0 <= c -> f_create C s o a r l c = Ok s' -> farm_inv C s' /\ fpools s !! (a, r, l) = None.
  Proof.
    intros HI Hc H. unfold f_create in H. bstep H u0 E0. bstep H u1 E1. bstep H u2 E2. bstep H u3 E3. injection H as <-.
    apply bool_decide_eq_true in E1. split; [|auto]. set (k := (a, r, l)) in *. pose proof HI as [].
    assert (forall e, In e (f_log s) -> ev_key e <> k) as Hno.
    { intros e He Heq. destruct (fi_log e He) as [x Hx]. rewrite Heq in Hx. congruence. }
    destruct (ev_other_zero k (f_log s) Hno) as [Z1 Z2].
    assert (forall f, f pos0 = 0 -> pool_sum s k f = 0) as Hps.
    { intros f Hf. apply msum_zero. intros [k' w] q Hq. cbn. case_bool_decide; auto. subst.
      destruct (fi_posns _ _ _ Hq) as (p & Hp & _). congruence. }
    split; cbn [set_pool f_led f_now fpools fposns f_log]; auto.
    - intros k' p. destruct (decide (k' = k)) as [->|Hne].
      + rewrite lookup_insert. intros [= <-]. split; cbn; try lia.
        * symmetry. apply (Hps ps_dep). reflexivity.
        * pose proof U128MAX_pos. lia.
        * pose proof U128MAX_pos. lia.
        * change (SHARE * claimed s k + pool_sum s k (wt 0) + SHARE * (0 * (0 - 0)) <= SHARE * dispatched s k).
          rewrite (Hps (wt 0)) by (unfold wt; cbn; lia). unfold claimed, dispatched. rewrite Z1, Z2. lia.
      + rewrite lookup_insert_ne by auto. intros E. destruct (fi_pools _ _ E). split; auto.
    - intros k' w q E. destruct (fi_posns _ _ _ E) as (p & Ep & [? ? ? ?]). exists p.
      rewrite lookup_insert_ne by congruence. split; auto. split; auto.
    - intros e He. destruct (fi_log e He) as [x Hx]. rewrite lookup_insert_ne; eauto. intros E. symmetry in E. exact (Hno e He E).
    - intros x. unfold reward_liability. cbn [set_pool fpools]. rewrite msum_insert_new by auto.
      specialize (fi_solv x). unfold reward_liability in fi_solv.
      change (principal (set_pool s k (new_fpool c)) x) with (principal s x).
      change (dispatched (set_pool s k (new_fpool c))) with (dispatched s). change (claimed (set_pool s k (new_fpool c))) with (claimed s).
      assert (dispatched s k = 0) as -> by exact Z2. assert (claimed s k = 0) as -> by exact Z1.
      case_bool_decide; lia.
  Qed.

  Lemma pool_param_inv s k p p' : farm_inv C s -> fpools s !! k = Some p ->
    fp_last p' = fp_last p -> fp_finish p' = fp_finish p -> fp_rate p' = fp_rate p -> fp_rps p' = fp_rps p ->
    fp_total p' = fp_total p -> 0 <= fp_cool p' -> farm_inv C (set_pool s k p').
  Proof.
    intros HI Hp E1 E2 E3 E4 E5 E6. apply (inv_pool C s k p); auto; [|lia]. destruct (fi_pools _ _ HI _ _ Hp).
    split; rewrite ?E1, ?E2, ?E3, ?E4, ?E5; auto.
  Qed.

  Lemma inv_led s L : farm_inv C s -> ledger_wf L -> (forall a, iss L a <= U128MAX) ->
    (forall a, bal (f_led s) a (pool_acct C a) <= bal L a (pool_acct C a)) -> farm_inv C (f_set_led s L).
  Proof.
    intros [] H1 H2 H3. split; cbn [f_set_led f_led f_now fpools fposns f_log]; auto.
    - intros k p E. destruct (fi_pools _ _ E). split; auto.
    - intros k w q E. destruct (fi_posns _ _ _ E) as (p & ? & [? ? ? ?]). exists p. split; auto. split; auto.
    - intros a. specialize (fi_solv a). specialize (H3 a).
      change (principal (f_set_led s L) a) with (principal s a). change (reward_liability (f_set_led s L) a) with (reward_liability s a). lia.
  Qed.

  Lemma farm_step_inv s o : farm_inv C s -> farm_op_ok C o -> farm_inv C (farm_exec C P s o).
  Proof.
    intros HI HO. unfold farm_exec. destruct (farm_step C P s o) as [s'| |] eqn:E; auto.
    destruct o as [o a r l c|o k b|o k c|o k|w k amt|w k amt|w k|w k|o k py amt d|n|a f t amt|a w amt|a w amt]; cbn [farm_step farm_op_ok] in *.
    - destruct HO as [_ Hc]. destruct (create_inv _ _ _ _ _ _ _ HI Hc E); auto.
    - unfold f_set_status in E. bstep E u0 E0. bstep E p E1. bstep E u1 E2. injection E as <-. apply ok_or_ok in E1.
      apply (pool_param_inv s k p); auto. cbn. apply (po_cool _ _ _ (fi_pools _ _ HI _ _ E1)).
    - unfold f_set_cool in E. bstep E u0 E0. bstep E u1 E1. bstep E p E2. bstep E u2 E3. injection E as <-. apply ok_or_ok in E2.
      apply (pool_param_inv s k p); auto.
    - unfold f_reset_unlock in E. bstep E u0 E0. bstep E p E1. bstep E u1 E2. destruct (_ <? _) in E; [discriminate|]. injection E as <-. apply ok_or_ok in E1.
      apply (pool_param_inv s k p); auto. cbn. apply (po_cool _ _ _ (fi_pools _ _ HI _ _ E1)).
    - destruct HO as [H1 H2]. destruct (deposit_full s w k amt s' HI H1 ltac:(lia) E) as (p & p' & H). cbn zeta in H. destruct_and!. assumption.
    - destruct HO as [H1 H2]. destruct (withdraw_full s w k amt s' HI H1 ltac:(lia) E) as (p & p' & H). cbn zeta in H. destruct_and!. assumption.
    - destruct (redeem_full s w k s' HI HO E) as (p & H). cbn zeta in H. destruct_and!. assumption.
    - destruct (claim_full s w k s' HI HO E) as (p & p' & H). cbn zeta in H. destruct_and!. assumption.
    - destruct HO as (H1 & H2 & H3). destruct (dispatch_full s o k py amt d s' HI H1 H2 H3 E) as (p & p' & H). cbn zeta in H. destruct_and!. assumption.
    - injection E as <-. destruct HI. split; cbn [f_led f_now fpools fposns f_log]; auto; try lia.
      + intros k p E. destruct (fi_pools _ _ E). split; auto. cbn. lia.
      + intros k w q E. destruct (fi_posns _ _ _ E) as (p & ? & [? ? ? [Q1 Q2]]). exists p. split; auto. split; auto.
        split; auto. cbn. intros it Hit. destruct (Q1 it Hit). lia.
    - bstep E L E0. injection E as <-. pose proof (transfer_spec _ _ _ _ _ _ _ _ E0) as (T1 & T2 & _). destruct HO as [H1 H2].
      apply inv_led; auto.
      + eapply transfer_wf; [|apply (fi_wf _ _ HI)|exact E0]. lia.
      + intros a'. rewrite T2. apply (fi_iss _ _ HI).
      + intros a'. rewrite T1. unfold at_. specialize (H1 a'). repeat case_bool_decide; destruct_and?; subst; try congruence; try tauto; lia.
    - bstep E L E0. injection E as <-. pose proof (mint_spec _ _ _ _ _ _ E0) as (T0 & T1 & T2). apply inv_led; auto.
      + eapply mint_wf; [apply (fi_wf _ _ HI)|exact E0].
      + intros a'. unfold mint_into in E0. destruct (amt =? 0); [injection E0 as <-; apply (fi_iss _ _ HI)|].
        destruct (negb _); [discriminate|]. destruct (_ <? _); [discriminate|]. bstep E0 i E1. injection E0 as <-.
        rewrite iss_set_iss, iss_set_bal. case_bool_decide; [lia|apply (fi_iss _ _ HI)].
      + intros a'. rewrite T1. unfold at_. case_bool_decide; lia.
    - bstep E L E0. injection E as <-. pose proof (burn_spec _ _ _ _ _ _ E0) as (T0 & T3 & T1 & T2). apply inv_led; auto.
      + eapply burn_wf; [apply (fi_wf _ _ HI)|exact E0].
      + intros a'. rewrite T2. pose proof (fi_iss _ _ HI a'). case_bool_decide; lia.
      + intros a'. rewrite T1. unfold at_. specialize (HO a'). case_bool_decide; destruct_and?; subst; try congruence; lia.
  Qed.

  Lemma farm_init_inv L now : 0 <= max_locks C -> ledger_wf L -> (forall a, iss L a <= U128MAX) -> 0 <= now -> farm_inv C (farm_init L now).
  Proof.
    intros H1 H2 H3 H4. split; cbn; auto.
    - intros k p. rewrite lookup_empty. discriminate.
    - intros k w q. rewrite lookup_empty. discriminate.
    - intros e [].
    - intros a. unfold principal, reward_liability, farm_init. cbn [fposns fpools f_led]. rewrite !msum_empty. apply H2.
  Qed.
  Lemma farm_reachable_inv s : 0 <= max_locks C -> farm_reachable C P s -> farm_inv C s.
  Proof. intros HM. induction 1; [apply farm_init_inv; auto|apply farm_step_inv; auto]. Qed.
End ops.
