(** * FarmProofs: the farming invariant. *)
From Verif Require Import Base MapSum Ledger AmmModel StreamSpec FarmModel FarmSpec.

Lemma SHARE_pos : 0 < SHARE. Proof. reflexivity. Qed.
Global Opaque SHARE.

Section msum_more.
  Context {K : Type} `{Countable K} {V : Type}.
  Lemma msum_update_fun (f g : K -> V -> Z) (m : gmap K V) k v :
    m !! k = Some v -> (forall k' v', k' <> k -> f k' v' = g k' v') -> msum g m = msum f m + g k v - f k v.
  Proof.
    intros Hk Hfg. rewrite (msum_delete f m k v Hk), (msum_delete g m k v Hk).
    rewrite (msum_ext f g (delete k m)); [lia|]. intros k' v' Hk'. apply lookup_delete_Some in Hk' as [? _]. apply Hfg. auto.
  Qed.
  (** a sum whose summand ignores the value *)
  Lemma msum_insert_same (f : K -> Z) (m : gmap K V) k v v' :
    m !! k = Some v -> msum (fun k _ => f k) (<[k := v']> m) = msum (fun k _ => f k) m.
  Proof. intros Hk. rewrite msum_insert, Hk. lia. Qed.
End msum_more.

Lemma lsum_app {A} (f : A -> Z) l1 l2 : lsum f (l1 ++ l2) = lsum f l1 + lsum f l2.
Proof. unfold lsum. induction l1; cbn; lia. Qed.

(** weighted claim of a position at accumulator [r], scaled by 10^12 *)
Definition wt (r : Z) (q : fpos) : Z := SHARE * ps_reward q + ps_dep q * (r - ps_paid q).
Definition upd_pos (s : farm) (k : Z * Z * Z) (w : Z) (q : fpos) : gmap (Z * Z * Z * Z) fpos := <[(k, w) := q]> (fposns s).

Record fpool_ok (s : farm) (k : Z * Z * Z) (p : fpool) : Prop := {
  po_total : fp_total p = pool_sum s k ps_dep;
  po_tot_nn : 0 <= fp_total p <= U128MAX;
  po_rate : 0 <= fp_rate p;
  po_rps : 0 <= fp_rps p <= U128MAX;
  po_last : 0 <= fp_last p <= fp_finish p;
  po_now : fp_last p <= f_now s;
  po_cool : 0 <= fp_cool p;
  po_budget : SHARE * claimed s k + pool_sum s k (wt (fp_rps p)) + SHARE * (fp_rate p * (fp_finish p - fp_last p))
              <= SHARE * dispatched s k
}.
Definition locks_ok (C : farm_cfg) (s : farm) (q : fpos) : Prop :=
  (forall it, In it (ps_locks q) -> 0 < it.1 /\ 0 <= it.2 <= f_now s) /\ Z.of_nat (length (ps_locks q)) <= max_locks C.
Record fpos_ok (C : farm_cfg) (s : farm) (p : fpool) (q : fpos) : Prop := {
  qo_dep : 0 <= ps_dep q;
  qo_rew : 0 <= ps_reward q;
  qo_paid : 0 <= ps_paid q <= fp_rps p;
  qo_locks : locks_ok C s q
}.
Definition ev_key (e : farm_event) : Z * Z * Z :=
  match e with EDeposited _ k _ | EWithdrew _ k _ | ERedeem _ k _ | ERewardPaid _ k _ | ERewardAdded k _ => k end.

Record farm_inv (C : farm_cfg) (s : farm) : Prop := {
  fi_wf : ledger_wf (f_led s);
  fi_iss : forall a, iss (f_led s) a <= U128MAX;
  fi_now : 0 <= f_now s;
  fi_max : 0 <= max_locks C;
  fi_pools : forall k p, fpools s !! k = Some p -> fpool_ok s k p;
  fi_posns : forall k w q, fposns s !! (k, w) = Some q -> exists p, fpools s !! k = Some p /\ fpos_ok C s p q;
  fi_log : forall e, In e (f_log s) -> is_Some (fpools s !! ev_key e);
  fi_solv : forall a, principal s a + reward_liability s a <= bal (f_led s) a (pool_acct C a)
}.

Lemma pool_sum_upd s k w q k' f pl L n lg :
  f pos0 = 0 ->
  pool_sum (mkFarm pl (<[(k, w) := q]> (fposns s)) L n lg) k' f =
  pool_sum s k' f + (if bool_decide (k' = k) then f q - f (pos_get s k w) else 0).
Proof.
  intros H0. unfold pool_sum, pos_get. cbn [fposns]. rewrite msum_insert. cbn [fst].
  destruct (fposns s !! (k, w)) as [v|] eqn:E; cbn [default];
    repeat case_bool_decide; subst; try congruence; unfold id; rewrite ?H0; lia.
Qed.
Lemma principal_upd s k w q a pl L n lg :
  principal (mkFarm pl (<[(k, w) := q]> (fposns s)) L n lg) a =
  principal s a + (if bool_decide (a = k.1.1) then (ps_dep q + locked q) - (ps_dep (pos_get s k w) + locked (pos_get s k w)) else 0).
Proof.
  unfold principal, pos_get. cbn [fposns]. rewrite msum_insert. cbn [fst].
  destruct (fposns s !! (k, w)) as [v|] eqn:E; cbn [default];
    repeat case_bool_decide; subst; try congruence; unfold id; cbn; lia.
Qed.

(** effect of moving the accumulator on the sum *)
Lemma pool_sum_wt s k r r' : pool_sum s k (wt r') = pool_sum s k (wt r) + (r' - r) * pool_sum s k ps_dep.
Proof.
  unfold pool_sum. rewrite <- msum_mul_const, <- msum_add. apply msum_ext. intros kw q _.
  case_bool_decide; unfold wt; lia.
Qed.

Section inv.
  Context (C : farm_cfg) (P : policy).

  Lemma pos_get_ok s k p w : farm_inv C s -> fpools s !! k = Some p -> fpos_ok C s p (pos_get s k w).
  Proof.
    intros HI Hp. unfold pos_get. destruct (fposns s !! (k, w)) as [q|] eqn:E; cbn [default]; unfold id.
    - destruct (fi_posns _ _ HI _ _ _ E) as (p' & E' & Hq). assert (p' = p) as -> by congruence. auto.
    - destruct (fi_pools _ _ HI _ _ Hp) as [_ _ _ ? _ _ _ _]. pose proof (fi_max _ _ HI).
      split; cbn; try lia. split; cbn; [intros _ []|lia].
  Qed.

  Lemma claimed_ev s pl ps L n es k : claimed (mkFarm pl ps L n (es ++ f_log s)) k = lsum (ev_claimed k) es + claimed s k.
  Proof. unfold claimed. cbn [f_log]. apply lsum_app. Qed.
  Lemma dispatched_ev s pl ps L n es k : dispatched (mkFarm pl ps L n (es ++ f_log s)) k = lsum (ev_dispatched k) es + dispatched s k.
  Proof. unfold dispatched. cbn [f_log]. apply lsum_app. Qed.

  Lemma ev_other_zero k es : (forall e, In e es -> ev_key e <> k) -> lsum (ev_claimed k) es = 0 /\ lsum (ev_dispatched k) es = 0.
  Proof.
    induction es as [|e es IH]; intros H; [split; reflexivity|].
    destruct (IH (fun x Hx => H x (or_intror Hx))) as [I1 I2].
    change (ev_claimed k e + lsum (ev_claimed k) es = 0 /\ ev_dispatched k e + lsum (ev_dispatched k) es = 0).
    rewrite I1, I2. pose proof (H e (or_introl eq_refl)) as He.
    destruct e; cbn in *; split; auto; rewrite bool_decide_false by auto; reflexivity.
  Qed.

  (** one pool and one position change *)
  Lemma inv_change s k p w q' p' L' es :
    farm_inv C s -> fpools s !! k = Some p ->
    let q := pos_get s k w in
    let s' := mkFarm (<[k := p']> (fpools s)) (<[(k, w) := q']> (fposns s)) L' (f_now s) (es ++ f_log s) in
    fp_last p' = fp_last p -> fp_finish p' = fp_finish p -> fp_rate p' = fp_rate p -> fp_rps p' = fp_rps p -> fp_cool p' = fp_cool p ->
    fp_total p' = fp_total p + ps_dep q' - ps_dep q -> 0 <= fp_total p' <= U128MAX ->
    fpos_ok C s p q' ->
    (forall e, In e es -> ev_key e = k) -> lsum (ev_dispatched k) es = 0 ->
    wt (fp_rps p) q' + SHARE * lsum (ev_claimed k) es <= wt (fp_rps p) q ->
    ledger_wf L' -> (forall a, iss L' a <= U128MAX) ->
    (forall a, bal (f_led s) a (pool_acct C a)
       + (if bool_decide (a = k.1.1) then (ps_dep q' + locked q') - (ps_dep q + locked q) else 0)
       - (if bool_decide (a = k.1.2) then lsum (ev_claimed k) es else 0) <= bal L' a (pool_acct C a)) ->
    farm_inv C s'.
  Proof.
    intros HI Hp q s' E1 E2 E3 E4 Ec Etot Htot Hq' Hes Hd Hwt HW HIs Hbal.
    pose proof HI as [].
    assert (forall k', k' <> k -> lsum (ev_claimed k') es = 0 /\ lsum (ev_dispatched k') es = 0) as Hoth.
    { intros k' Hne. apply ev_other_zero. intros e He. rewrite (Hes e He). auto. }
    split; cbn [f_led f_now fpools fposns f_log s']; auto.
    - intros k' p0. destruct (decide (k' = k)) as [->|Hne].
      + rewrite lookup_insert. intros [= <-]. destruct (fi_pools0 _ _ Hp).
        split; try lia; unfold s'; rewrite ?pool_sum_upd by reflexivity; rewrite ?bool_decide_true by auto; fold q.
        * lia.
        * cbn. lia.
        * rewrite E4, claimed_ev, dispatched_ev, E1, E2, E3, Hd.
          rewrite ?pool_sum_upd by (unfold wt; cbn; lia). rewrite ?bool_decide_true by auto. fold q. lia.
      + rewrite lookup_insert_ne by auto. intros E0. destruct (fi_pools0 _ _ E0). destruct (Hoth k' Hne) as [Z1 Z2].
        split; auto; unfold s'; rewrite ?claimed_ev, ?dispatched_ev, ?Z1, ?Z2;
          rewrite ?pool_sum_upd by (unfold wt; cbn; lia); rewrite ?bool_decide_false by auto; auto; lia.
    - intros k' w' q0. destruct (decide ((k', w') = (k, w))) as [Heq|Hne].
      + rewrite Heq, lookup_insert. intros [= <-]. injection Heq as -> ->. rewrite lookup_insert. exists p'. split; auto.
        destruct Hq'. split; auto. lia.
      + rewrite lookup_insert_ne by auto. intros E0. destruct (fi_posns0 _ _ _ E0) as (p0 & Ep & Hq0).
        destruct (decide (k' = k)) as [->|Hne2].
        * rewrite lookup_insert. exists p'. split; auto. assert (p0 = p) as -> by congruence. destruct Hq0. split; auto. lia.
        * rewrite lookup_insert_ne by auto. exists p0. split; auto. destruct Hq0. split; auto.
    - intros e. rewrite in_app_iff. intros [He|He].
      + rewrite (Hes e He), lookup_insert. eauto.
      + destruct (decide (ev_key e = k)) as [->|Hne]; [rewrite lookup_insert; eauto|]. rewrite lookup_insert_ne by auto. auto.
    - intros a. unfold s'. rewrite principal_upd. fold q. specialize (fi_solv0 a). specialize (Hbal a).
      assert (reward_liability s' a = reward_liability s a - (if bool_decide (a = k.1.2) then lsum (ev_claimed k) es else 0)) as HRL.
      { change (reward_liability s' a) with (msum (fun (k0 : Z*Z*Z) (_ : fpool) => if bool_decide (k0.1.2 = a) then dispatched s' k0 - claimed s' k0 else 0) (<[k := p']> (fpools s))).
        rewrite (msum_insert_same (fun k0 => if bool_decide (k0.1.2 = a) then dispatched s' k0 - claimed s' k0 else 0) (fpools s) k p p' Hp).
        unfold reward_liability.
        rewrite (msum_update_fun (fun (k0 : Z*Z*Z) (_ : fpool) => if bool_decide (k0.1.2 = a) then dispatched s k0 - claimed s k0 else 0)
                   (fun (k0 : Z*Z*Z) (_ : fpool) => if bool_decide (k0.1.2 = a) then dispatched s' k0 - claimed s' k0 else 0) (fpools s) k p Hp).
        - unfold s'. rewrite claimed_ev, dispatched_ev, Hd. repeat case_bool_decide; subst; try congruence; lia.
        - intros k' _ Hne. destruct (Hoth k' Hne) as [Z1 Z2]. unfold s'. rewrite claimed_ev, dispatched_ev, Z1, Z2. reflexivity. }
      fold s'. rewrite HRL. lia.
  Qed.

  (** changing one pool only, no ledger or log change *)
  Lemma inv_pool s k p p' :
    farm_inv C s -> fpools s !! k = Some p -> fpool_ok s k p' -> fp_rps p <= fp_rps p' -> farm_inv C (set_pool s k p').
  Proof.
    intros HI Hp Hp' Hr. pose proof HI as [].
    split; cbn [set_pool f_led f_now fpools fposns f_log]; auto.
    - intros k' p0. destruct (decide (k' = k)) as [->|Hne].
      + rewrite lookup_insert. intros [= <-]. destruct Hp'. split; auto.
      + rewrite lookup_insert_ne by auto. intros E0. destruct (fi_pools0 _ _ E0). split; auto.
    - intros k' w q E0. destruct (fi_posns0 _ _ _ E0) as (p0 & Ep & Hq0). destruct (decide (k' = k)) as [->|Hne].
      + rewrite lookup_insert. exists p'. split; auto. assert (p0 = p) as -> by congruence. destruct Hq0. split; auto. lia.
      + rewrite lookup_insert_ne by auto. exists p0. split; auto. destruct Hq0. split; auto.
    - intros e He. destruct (decide (ev_key e = k)) as [->|Hne]; [rewrite lookup_insert; eauto|]. rewrite lookup_insert_ne by auto. auto.
    - intros a. specialize (fi_solv0 a). 
      assert (reward_liability (set_pool s k p') a = reward_liability s a) as ->.
      { unfold reward_liability. cbn [set_pool fpools].
        exact (msum_insert_same (fun k0 => if bool_decide (k0.1.2 = a) then dispatched s k0 - claimed s k0 else 0) (fpools s) k p p' Hp). }
      exact fi_solv0.
  Qed.

  (** ** the accumulator *)
  Lemma last_applicable_min p now : last_applicable p now = Z.min now (fp_finish p).
  Proof. unfold last_applicable. destruct (fp_finish p <? now) eqn:E; lia. Qed.

  Lemma reward_per_share_ok p now r : reward_per_share p now = Ok r -> r = rps_at p now /\ (fp_rps p <= U128MAX -> r <= U128MAX).
  Proof.
    unfold reward_per_share, rps_at. destruct (fp_total p =? 0) eqn:E; [intros [= <-]; auto|].
    intros H. bstep H ad Ea. apply chk_some in Ea as [-> Ea]. apply ok_or_ok in H. apply checked_add_some in H as [-> H].
    unfold saturating_sub in *. rewrite last_applicable_min in *. split; auto; lia.
  Qed.

  Lemma rps_at_ge p now : 0 <= fp_total p -> 0 <= fp_rate p -> fp_rps p <= rps_at p now.
  Proof.
    intros H1 H2. unfold rps_at. destruct (fp_total p =? 0) eqn:E; [lia|].
    pose proof SHARE_pos. assert (0 <= Z.max 0 (Z.min now (fp_finish p) - fp_last p) * fp_rate p * SHARE / fp_total p); [|lia].
    apply Z.div_pos; [|lia]. repeat apply Z.mul_nonneg_nonneg; lia.
  Qed.

  (** budget inequality at block [now]: what has been claimed, what is claimable and what is still to stream *)
  Lemma budget_at s k p : farm_inv C s -> fpools s !! k = Some p ->
    SHARE * claimed s k + pool_sum s k (wt (rps_at p (f_now s))) +
      SHARE * (fp_rate p * (fp_finish p - Z.min (f_now s) (fp_finish p))) <= SHARE * dispatched s k.
  Proof.
    intros HI Hp. destruct (fi_pools _ _ HI _ _ Hp). pose proof SHARE_pos as HS.
    rewrite (pool_sum_wt s k (fp_rps p)). rewrite <- po_total0.
    set (d := Z.min (f_now s) (fp_finish p) - fp_last p).
    assert (0 <= d) as Hd by lia.
    assert ((rps_at p (f_now s) - fp_rps p) * fp_total p <= d * fp_rate p * SHARE) as Hle.
    { unfold rps_at. destruct (fp_total p =? 0) eqn:E.
      - assert (0 <= d * fp_rate p * SHARE) by (repeat apply Z.mul_nonneg_nonneg; lia). lia.
      - replace (Z.max 0 (Z.min (f_now s) (fp_finish p) - fp_last p)) with d by lia.
        pose proof (div_le_mul (d * fp_rate p * SHARE) (fp_total p) ltac:(lia)). lia. }
    assert (fp_rate p * (fp_finish p - fp_last p) = fp_rate p * (fp_finish p - Z.min (f_now s) (fp_finish p)) + d * fp_rate p) as Hr.
    { unfold d. ring. }
    rewrite Hr in po_budget0. rewrite Z.mul_add_distr_l in po_budget0.
    replace (SHARE * (d * fp_rate p)) with (d * fp_rate p * SHARE) in po_budget0 by ring. lia.
  Qed.

  Lemma update_rps_inv s k p p' : farm_inv C s -> fpools s !! k = Some p -> update_rps p (f_now s) = Ok p' ->
    farm_inv C (set_pool s k p') /\ fp_rps p' = rps_at p (f_now s) /\ fp_last p' = Z.min (f_now s) (fp_finish p) /\
    fp_total p' = fp_total p /\ fp_finish p' = fp_finish p /\ fp_rate p' = fp_rate p /\ fp_cool p' = fp_cool p /\
    fp_unlock p' = fp_unlock p /\ fp_active p' = fp_active p /\ reward_per_share p' (f_now s) = Ok (fp_rps p').
  Proof.
    intros HI Hp H. unfold update_rps in H. bstep H r E. injection H as <-.
    apply reward_per_share_ok in E as [-> Hr]. pose proof (budget_at s k p HI Hp) as HB.
    destruct (fi_pools _ _ HI _ _ Hp). specialize (Hr (proj2 po_rps0)).
    pose proof (rps_at_ge p (f_now s) (proj1 po_tot_nn0) po_rate0) as Hge.
    rewrite last_applicable_min. cbn [fp_rps fp_last fp_total fp_finish fp_rate fp_cool fp_unlock fp_active].
    split; [|repeat (split; [reflexivity|])].
    - apply (inv_pool s k p); auto. pose proof (fi_now _ _ HI). split; cbn; auto; lia.
    - unfold reward_per_share. cbn [fp_total fp_rps fp_last fp_rate fp_finish]. destruct (fp_total p =? 0) eqn:E; auto.
      unfold last_applicable. cbn [fp_finish].
      assert (saturating_sub (if fp_finish p <? f_now s then fp_finish p else f_now s) (Z.min (f_now s) (fp_finish p)) = 0) as ->.
      { unfold saturating_sub. destruct (_ <? _) eqn:E2; lia. }
      replace (0 * fp_rate p * SHARE / fp_total p) with 0 by (rewrite !Z.mul_0_l, Z.div_0_l; lia).
      unfold to_u128, checked_add.
      assert (chk 0 = Some 0) as -> by (apply chk_some; pose proof U128MAX_pos; lia). cbn [ok_or rbind]. rewrite Z.add_0_r.
      assert (chk (rps_at p (f_now s)) = Some (rps_at p (f_now s))) as -> by (apply chk_some; lia). reflexivity.
  Qed.

  (** settling a user *)
  Lemma update_reward_user s w k s1 : farm_inv C s -> update_reward s (Some w) k = Ok s1 ->
    exists p p1, fpools s !! k = Some p /\ fpools s1 = <[k := p1]> (fpools s) /\
      fp_rps p1 = rps_at p (f_now s) /\ fp_last p1 = Z.min (f_now s) (fp_finish p) /\
      fp_total p1 = fp_total p /\ fp_finish p1 = fp_finish p /\ fp_rate p1 = fp_rate p /\ fp_cool p1 = fp_cool p /\
      fp_unlock p1 = fp_unlock p /\ fp_active p1 = fp_active p /\
      pos_get s1 k w = mkFPos (ps_dep (pos_get s k w)) (ps_locks (pos_get s k w)) (claimable p (pos_get s k w) (f_now s)) (rps_at p (f_now s)) /\
      fposns s1 = <[(k, w) := pos_get s1 k w]> (fposns s) /\
      f_led s1 = f_led s /\ f_now s1 = f_now s /\ f_log s1 = f_log s /\ farm_inv C s1.
  Proof.
    intros HI H. unfold update_reward in H. bstep H p E0. bstep H p1 E1. bstep H r E2. bstep H diff E3. bstep H earned E4.
    apply ok_or_ok in E0. injection H as <-. destruct (update_rps_inv s k p p1 HI E0 E1) as (HI1 & F1 & F2 & F3 & F4 & F5 & F6 & F7 & F8 & F9).
    rewrite F9 in E2. injection E2 as <-. destruct E3 as [-> E3]. apply chk_some in E4 as [-> E4].
    set (q := pos_get s k w) in *.
    exists p, p1. cbn [set_pos set_pool fpools fposns f_led f_now f_log].
    assert (ps_dep q * (fp_rps p1 - ps_paid q) / SHARE + ps_reward q = claimable p q (f_now s)) as Hcl.
    { unfold claimable. rewrite F1. lia. }
    assert (pos_get (set_pos (set_pool s k p1) k w (mkFPos (ps_dep q) (ps_locks q) (ps_dep q * (fp_rps p1 - ps_paid q) / SHARE + ps_reward q) (fp_rps p1))) k w
            = mkFPos (ps_dep q) (ps_locks q) (claimable p q (f_now s)) (rps_at p (f_now s))) as Hpg.
    { unfold pos_get, set_pos. cbn. rewrite lookup_insert. cbn. rewrite Hcl, F1. reflexivity. }
    repeat (split; [assumption|]). split; [reflexivity|]. repeat (split; [assumption|]).
    split; [rewrite Hpg, Hcl, F1; reflexivity|].
    do 3 (split; [reflexivity|]).
    pose proof (pos_get_ok (set_pool s k p1) k p1 w HI1 ltac:(cbn; apply lookup_insert)) as Hq.
    change (pos_get (set_pool s k p1) k w) with q in Hq.
    rewrite Hcl, F1.
    assert (farm_inv C (mkFarm (<[k := p1]> (fpools (set_pool s k p1))) (<[(k, w) := mkFPos (ps_dep q) (ps_locks q) (claimable p q (f_now s)) (rps_at p (f_now s))]> (fposns (set_pool s k p1)))
              (f_led s) (f_now (set_pool s k p1)) ([] ++ f_log (set_pool s k p1)))) as HI2.
    { apply (inv_change (set_pool s k p1) k p1 w _ p1 (f_led s) []); auto.
      - cbn. apply lookup_insert.
      - change (pos_get (set_pool s k p1) k w) with q. cbn [ps_dep]. lia.
      - apply (fi_pools _ _ HI1 k p1). cbn. apply lookup_insert.
      - destruct Hq. split; cbn; auto; try lia.
      - intros e [].
      - change (pos_get (set_pool s k p1) k w) with q. unfold wt. cbn [ps_reward ps_dep ps_paid lsum foldr]. rewrite F1.
        unfold claimable. pose proof (div_le_mul (ps_dep q * (rps_at p (f_now s) - ps_paid q)) SHARE SHARE_pos). lia.
      - apply (fi_wf _ _ HI).
      - apply (fi_iss _ _ HI).
      - intros a. change (pos_get (set_pool s k p1) k w) with q. change (lsum (ev_claimed k) []) with 0.
        change (bal (f_led (set_pool s k p1)) a (pool_acct C a)) with (bal (f_led s) a (pool_acct C a)).
        unfold locked. cbn [ps_dep ps_locks]. repeat case_bool_decide; lia. }
    cbn [set_pool fpools fposns f_now f_log] in HI2. rewrite insert_insert in HI2. exact HI2.
  Qed.
End inv.
