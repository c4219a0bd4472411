(** * FarmProofs3: reward monotonicity, frames and liveness for farming. *)
From Verif Require Import Base MapSum Ledger AmmModel StreamSpec StreamProofs4 FarmModel FarmSpec FarmProofs FarmProofs2.

Lemma rps_at_mono p n m : 0 <= fp_total p -> 0 <= fp_rate p -> n <= m -> rps_at p n <= rps_at p m.
Proof.
  intros H1 H2 H3. unfold rps_at. destruct (fp_total p =? 0) eqn:E; [lia|].
  pose proof SHARE_pos as HS. apply Z.add_le_mono_l. apply Z.div_le_mono; [lia|].
  apply Z.mul_le_mono_nonneg_r; [lia|]. apply Z.mul_le_mono_nonneg_r; [lia|]. lia.
Qed.
(** a freshly settled pool: nothing accrues at the same block *)
Lemma rps_at_settled p now : Z.min now (fp_finish p) <= fp_last p -> rps_at p now = fp_rps p.
Proof.
  intros H. unfold rps_at. destruct (fp_total p =? 0) eqn:E; [auto|].
  replace (Z.max 0 (Z.min now (fp_finish p) - fp_last p)) with 0 by lia.
  rewrite !Z.mul_0_l. rewrite Z.div_0_l by lia. lia.
Qed.
Lemma claimable_mono p p' q n m : 0 <= ps_dep q -> rps_at p n <= rps_at p' m -> claimable p q n <= claimable p' q m.
Proof.
  intros H1 H2. unfold claimable. pose proof SHARE_pos. apply Z.add_le_mono_l. apply Z.div_le_mono; [lia|].
  apply Z.mul_le_mono_nonneg_l; lia.
Qed.

Section f3.
  Context (C : farm_cfg) (P : policy).

  Lemma pos_get_set s k w q k' w' pl L n lg :
    pos_get (mkFarm pl (<[(k, w) := q]> (fposns s)) L n lg) k' w' = if bool_decide (k' = k /\ w' = w) then q else pos_get s k' w'.
  Proof.
    unfold pos_get. cbn [fposns]. case_bool_decide as E.
    - destruct E as [-> ->]. rewrite lookup_insert. reflexivity.
    - rewrite lookup_insert_ne; [reflexivity|]. intros [= -> ->]. auto.
  Qed.
  Lemma pos_get_eq s s' k w k' w' q : fposns s' = <[(k, w) := q]> (fposns s) ->
    pos_get s' k' w' = if bool_decide (k' = k /\ w' = w) then q else pos_get s k' w'.
  Proof. intros E. unfold pos_get at 1. rewrite E. exact (pos_get_set s k w q k' w' (fpools s) (f_led s) (f_now s) (f_log s)). Qed.

  (** the accumulator of an existing pool after any operation *)
  Lemma pool_mono s o k p : farm_inv C s -> farm_op_ok C o -> fpools s !! k = Some p ->
    exists p', fpools (farm_exec C P s o) !! k = Some p' /\ fp_rps p <= fp_rps p' /\
      rps_at p (f_now s) <= rps_at p' (f_now (farm_exec C P s o)) /\ f_now s <= f_now (farm_exec C P s o).
  Proof.
    intros HI HO Hp. destruct (fi_pools _ _ HI _ _ Hp) as [T1 T2 T3 T4 T5 T6 T7 T8].
    pose proof (rps_at_ge p (f_now s) (proj1 T2) T3) as Hge.
    assert (forall s', fpools s' !! k = Some p -> f_now s' = f_now s ->
      exists p', fpools s' !! k = Some p' /\ fp_rps p <= fp_rps p' /\ rps_at p (f_now s) <= rps_at p' (f_now s') /\ f_now s <= f_now s') as Hsame.
    { intros s' E1 E2. exists p. rewrite E2. do 3 (split; [auto; lia|]). lia. }
    assert (forall s' k0 p0 p', fpools s !! k0 = Some p0 -> fpools s' = <[k0 := p']> (fpools s) -> f_now s' = f_now s ->
       fp_rps p' = rps_at p0 (f_now s) -> Z.min (f_now s) (fp_finish p') <= fp_last p' ->
      exists p', fpools s' !! k = Some p' /\ fp_rps p <= fp_rps p' /\ rps_at p (f_now s) <= rps_at p' (f_now s') /\ f_now s <= f_now s') as Hset.
    { intros s' k0 p0 p' E0 E1 E2 E3 E4. destruct (decide (k = k0)) as [<-|Hne].
      - exists p'. assert (p0 = p) as -> by congruence. rewrite E1, lookup_insert, E2, (rps_at_settled p' (f_now s) E4), E3.
        split; [auto|]. split; [lia|]. split; lia.
      - apply Hsame; auto. rewrite E1, lookup_insert_ne; auto. }
    assert (forall s' k0 p0 p', fpools s !! k0 = Some p0 -> s' = set_pool s k0 p' ->
       fp_rps p' = fp_rps p0 -> fp_last p' = fp_last p0 -> fp_finish p' = fp_finish p0 -> fp_rate p' = fp_rate p0 -> fp_total p' = fp_total p0 ->
      exists p', fpools s' !! k = Some p' /\ fp_rps p <= fp_rps p' /\ rps_at p (f_now s) <= rps_at p' (f_now s') /\ f_now s <= f_now s') as Hpar.
    { intros s' k0 p0 p' E0 -> E1 E2 E3 E4 E5. destruct (decide (k = k0)) as [<-|Hne].
      - exists p'. assert (p0 = p) as -> by congruence. cbn [set_pool fpools f_now]. rewrite lookup_insert.
        assert (rps_at p' (f_now s) = rps_at p (f_now s)) as -> by (unfold rps_at; rewrite E1, E2, E3, E4, E5; reflexivity).
        do 3 (split; [auto; lia|]). lia.
      - apply Hsame; auto. cbn. rewrite lookup_insert_ne; auto. }
    unfold farm_exec. destruct (farm_step C P s o) as [s'| |] eqn:E; [|apply Hsame; auto..].
    destruct o as [o a r l c|o k0 b|o k0 c|o k0|w k0 amt|w k0 amt|w k0|w k0|o k0 py amt d|n|a f t amt|a w amt|a w amt]; cbn [farm_step farm_op_ok] in *.
    - destruct HO as [_ Hc]. destruct (create_inv C _ _ _ _ _ _ _ HI Hc E) as [_ Hn].
      unfold f_create in E. bstep E u0 E0. bstep E u1 E1. bstep E u2 E2. bstep E u3 E3. injection E as <-.
      apply Hsame; auto. cbn. rewrite lookup_insert_ne; auto. congruence.
    - unfold f_set_status in E. bstep E u0 E0. bstep E p0 E1. bstep E u1 E2. injection E as <-. apply ok_or_ok in E1.
      eapply Hpar; eauto.
    - unfold f_set_cool in E. bstep E u0 E0. bstep E u1 E1. bstep E p0 E2. bstep E u2 E3. injection E as <-. apply ok_or_ok in E2.
      eapply Hpar; eauto.
    - unfold f_reset_unlock in E. bstep E u0 E0. bstep E p0 E1. bstep E u1 E2. destruct (_ <? _) in E; [discriminate|]. injection E as <-. apply ok_or_ok in E1.
      eapply Hpar; eauto.
    - destruct HO as [H1 H2]. destruct (deposit_full C P s w k0 amt s' HI H1 ltac:(lia) E) as (p0 & p' & H). cbn zeta in H.
      destruct H as (G1 & _ & _ & G2 & _ & G3 & G4 & G5 & _ & _ & _ & _ & _ & G6 & _). eapply (Hset s' k0 p0 p'); eauto. rewrite G4, G5. lia.
    - destruct HO as [H1 H2]. destruct (withdraw_full C P s w k0 amt s' HI H1 ltac:(lia) E) as (p0 & p' & H). cbn zeta in H.
      destruct H as (G1 & _ & _ & G2 & _ & G3 & G4 & G5 & _ & _ & _ & _ & _ & G6 & _). eapply (Hset s' k0 p0 p'); eauto. rewrite G4, G5. lia.
    - destruct (redeem_full C P s w k0 s' HI HO E) as (p0 & H). cbn zeta in H. destruct H as (G1 & _ & G2 & _ & _ & G3 & _).
      apply Hsame; auto. rewrite G2; auto.
    - destruct (claim_full C P s w k0 s' HI HO E) as (p0 & p' & H). cbn zeta in H.
      destruct H as (G1 & _ & G2 & _ & G3 & G4 & G5 & _ & _ & _ & _ & _ & G6 & _). eapply (Hset s' k0 p0 p'); eauto. rewrite G4, G5. lia.
    - destruct HO as (H1 & H2 & H3). destruct (dispatch_full C P s o k0 py amt d s' HI H1 H2 H3 E) as (p0 & p' & H). cbn zeta in H.
      destruct H as (_ & G1 & _ & G2 & _ & G3 & G4 & G5 & _ & _ & _ & _ & _ & G6 & _). eapply (Hset s' k0 p0 p'); eauto. lia.
    - injection E as <-. exists p. cbn. split; [auto|]. split; [lia|]. split; [|lia]. apply rps_at_mono; lia.
    - bstep E L E0. injection E as <-. apply Hsame; auto.
    - bstep E L E0. injection E as <-. apply Hsame; auto.
    - bstep E L E0. injection E as <-. apply Hsame; auto.
  Qed.

  (** the position of a user is only changed by the user's own calls on that pool; how *)
  Definition touches (o : farm_op) (k : Z * Z * Z) (w : Z) : Prop :=
    match o with
    | FDeposit w' k' _ | FWithdraw w' k' _ | FRedeem w' k' | FClaim w' k' => w' = w /\ k' = k
    | _ => False
    end.
  Lemma touches_dec o k w : touches o k w \/ ~ touches o k w.
  Proof. destruct o; cbn; try tauto; destruct (decide (who = w)), (decide (k0 = k)); tauto. Qed.
  Lemma pos_frame s o k w : farm_inv C s -> farm_op_ok C o -> ~ touches o k w -> pos_get (farm_exec C P s o) k w = pos_get s k w.
  Proof.
    intros HI HO HN. unfold farm_exec. destruct (farm_step C P s o) as [s'| |] eqn:E; auto.
    destruct o as [o a r l c|o k0 b|o k0 c|o k0|w0 k0 amt|w0 k0 amt|w0 k0|w0 k0|o k0 py amt d|n|a f t amt|a w0 amt|a w0 amt]; cbn [farm_step farm_op_ok touches] in *.
    - unfold f_create in E. bstep E u0 E0. bstep E u1 E1. bstep E u2 E2. bstep E u3 E3. injection E as <-. reflexivity.
    - unfold f_set_status in E. bstep E u0 E0. bstep E p0 E1. bstep E u1 E2. injection E as <-. reflexivity.
    - unfold f_set_cool in E. bstep E u0 E0. bstep E u1 E1. bstep E p0 E2. bstep E u2 E3. injection E as <-. reflexivity.
    - unfold f_reset_unlock in E. bstep E u0 E0. bstep E p0 E1. bstep E u1 E2. destruct (_ <? _) in E; [discriminate|]. injection E as <-. reflexivity.
    - destruct HO as [H1 H2]. destruct (deposit_full C P s w0 k0 amt s' HI H1 ltac:(lia) E) as (p0 & p' & H). cbn zeta in H.
      destruct H as (_ & _ & _ & _ & _ & _ & _ & _ & _ & _ & _ & G & _). rewrite (pos_get_eq _ _ _ _ k w _ G), bool_decide_false; auto. intros [-> ->]; auto.
    - destruct HO as [H1 H2]. destruct (withdraw_full C P s w0 k0 amt s' HI H1 ltac:(lia) E) as (p0 & p' & H). cbn zeta in H.
      destruct H as (_ & _ & _ & _ & _ & _ & _ & _ & _ & _ & _ & G & _). rewrite (pos_get_eq _ _ _ _ k w _ G), bool_decide_false; auto. intros [-> ->]; auto.
    - destruct (redeem_full C P s w0 k0 s' HI HO E) as (p0 & H). cbn zeta in H. destruct H as (_ & _ & _ & G & _).
      rewrite (pos_get_eq _ _ _ _ k w _ G), bool_decide_false; auto. intros [-> ->]; auto.
    - destruct (claim_full C P s w0 k0 s' HI HO E) as (p0 & p' & H). cbn zeta in H.
      destruct H as (_ & _ & _ & _ & _ & _ & _ & _ & _ & _ & G & _). rewrite (pos_get_eq _ _ _ _ k w _ G), bool_decide_false; auto. intros [-> ->]; auto.
    - destruct HO as (H1 & H2 & H3). destruct (dispatch_full C P s o k0 py amt d s' HI H1 H2 H3 E) as (p0 & p' & H). cbn zeta in H.
      destruct H as (_ & _ & _ & _ & _ & _ & _ & _ & _ & _ & _ & G & _). unfold pos_get. rewrite G. reflexivity.
    - injection E as <-. reflexivity.
    - bstep E L E0. injection E as <-. reflexivity.
    - bstep E L E0. injection E as <-. reflexivity.
    - bstep E L E0. injection E as <-. reflexivity.
  Qed.

  (** claimable rewards never decrease, except by the user's own claim *)
  Lemma claimable_never_lost s o k w : farm_inv C s -> farm_op_ok C o -> o <> FClaim w k ->
    user_claimable s k w <= user_claimable (farm_exec C P s o) k w.
  Proof.
    intros HI HO HN. unfold user_claimable. destruct (fpools s !! k) as [p|] eqn:Hp.
    2: { destruct (fpools (farm_exec C P s o) !! k) as [p'|] eqn:Hp'; [|lia].
         pose proof (farm_step_inv C P s o HI HO) as HI'. destruct (pos_get_ok C _ k p' w HI' Hp') as [A1 A2 A3 _].
         destruct (fi_pools _ _ HI' _ _ Hp') as [_ B1 B2 _ _ _ _ _]. pose proof (rps_at_ge p' (f_now (farm_exec C P s o)) (proj1 B1) B2).
         unfold claimable. pose proof SHARE_pos.
         assert (0 <= ps_dep (pos_get (farm_exec C P s o) k w) * (rps_at p' (f_now (farm_exec C P s o)) - ps_paid (pos_get (farm_exec C P s o) k w)) / SHARE); [|lia].
         apply Z.div_pos; [|lia]. apply Z.mul_nonneg_nonneg; lia. }
    destruct (pool_mono s o k p HI HO Hp) as (p' & Hp' & M1 & M2 & M3). rewrite Hp'.
    pose proof (pos_get_ok C s k p w HI Hp) as [D1 D2 D3 _].
    assert (Hsettle : forall q', ps_reward q' = claimable p (pos_get s k w) (f_now s) -> ps_paid q' = rps_at p (f_now s) ->
             0 <= ps_dep q' -> pos_get (farm_exec C P s o) k w = q' ->
             claimable p (pos_get s k w) (f_now s) <= claimable p' (pos_get (farm_exec C P s o) k w) (f_now (farm_exec C P s o))).
    { intros q' E1 E2 E3 ->. unfold claimable at 2. rewrite E1, E2. pose proof SHARE_pos.
      assert (0 <= ps_dep q' * (rps_at p' (f_now (farm_exec C P s o)) - rps_at p (f_now s)) / SHARE); [|lia].
      apply Z.div_pos; [|lia]. apply Z.mul_nonneg_nonneg; lia. }
    assert (Hfr : pos_get (farm_exec C P s o) k w = pos_get s k w ->
             claimable p (pos_get s k w) (f_now s) <= claimable p' (pos_get (farm_exec C P s o) k w) (f_now (farm_exec C P s o))).
    { intros ->. apply claimable_mono; auto. }
    destruct (touches_dec o k w) as [Ht|Ht]; [|apply Hfr, pos_frame; auto].
    destruct (farm_step C P s o) as [s'| |] eqn:E; [|apply Hfr; unfold farm_exec; rewrite E; reflexivity..].
    assert (farm_exec C P s o = s') as Hex by (unfold farm_exec; rewrite E; reflexivity). rewrite Hex in *.
    destruct o as [o a r l c|o k0 b|o k0 c|o k0|w0 k0 amt|w0 k0 amt|w0 k0|w0 k0|o k0 py amt d|n|a f t amt|a w0 amt|a w0 amt]; cbn [touches] in Ht; try contradiction;
      destruct Ht as [-> ->]; cbn [farm_step farm_op_ok] in *.
    - destruct HO as [H1 H2]. destruct (FarmProofs2.deposit_full C P s w k amt s' HI H1 ltac:(lia) E) as (p0 & p0' & H). cbn zeta in H.
      destruct H as (G0 & _ & _ & _ & _ & _ & _ & _ & _ & _ & _ & G & _). assert (p0 = p) as -> by congruence.
      eapply Hsettle; [| | |rewrite (pos_get_eq _ _ _ _ k w _ G), bool_decide_true by auto; reflexivity]; cbn; auto. lia.
    - destruct HO as [H1 H2]. destruct (FarmProofs2.withdraw_full C P s w k amt s' HI H1 ltac:(lia) E) as (p0 & p0' & H). cbn zeta in H.
      destruct H as (G0 & G1 & _ & _ & _ & _ & _ & _ & _ & _ & _ & G & _). assert (p0 = p) as -> by congruence.
      eapply Hsettle; [| | |rewrite (pos_get_eq _ _ _ _ k w _ G), bool_decide_true by auto; reflexivity]; cbn; auto. lia.
    - destruct (redeem_full C P s w k s' HI HO E) as (p0 & H). cbn zeta in H. destruct H as (G0 & _ & G1 & G & _ & G2 & _).
      rewrite (pos_get_eq _ _ _ _ k w _ G), bool_decide_true by auto.
      unfold claimable in *. cbn [ps_reward ps_dep ps_paid]. pose proof SHARE_pos. apply Z.add_le_mono_l. apply Z.div_le_mono; [lia|].
      apply Z.mul_le_mono_nonneg_l; lia.
    - congruence.
  Qed.

  (** ** liveness *)
  Lemma lsum_nonneg {A} (f : A -> Z) l : (forall x, In x l -> 0 <= f x) -> 0 <= lsum f l.
  Proof.
    induction l as [|x l IH]; intros H; [unfold lsum; cbn; lia|]. change (0 <= f x + lsum f l).
    pose proof (H x (or_introl eq_refl)). assert (0 <= lsum f l) by (apply IH; intros; apply H; right; auto). lia.
  Qed.
  Lemma locked_nonneg s k p w : farm_inv C s -> fpools s !! k = Some p -> 0 <= locked (pos_get s k w).
  Proof.
    intros HI Hp. pose proof (pos_get_ok C s k p w HI Hp) as [_ _ _ [H _]]. apply lsum_nonneg.
    intros it Hit. apply H in Hit. lia.
  Qed.
  Lemma pos_all_ok s k w q : farm_inv C s -> fposns s !! (k, w) = Some q -> 0 <= ps_dep q + locked q /\ 0 <= ps_dep q.
  Proof.
    intros HI Hq. destruct (fi_posns _ _ HI _ _ _ Hq) as (p & Hp & [A1 _ _ [H _]]).
    assert (0 <= locked q); [|lia]. apply lsum_nonneg. intros it Hit. apply H in Hit. lia.
  Qed.
  Lemma reward_liability_nonneg s a : farm_inv C s -> 0 <= reward_liability s a.
  Proof.
    intros HI. apply msum_nonneg. intros k p Hp. case_bool_decide; [|lia].
    destruct (fi_pools _ _ HI _ _ Hp). pose proof SHARE_pos.
    assert (0 <= pool_sum s k (wt (fp_rps p))).
    { apply msum_nonneg. intros [k' w] q Hq. cbn. case_bool_decide; [|lia]. subst.
      destruct (fi_posns _ _ HI _ _ _ Hq) as (p0 & Hp0 & [B1 B2 B3 _]). assert (p0 = p) as -> by congruence.
      unfold wt. assert (0 <= ps_dep q * (fp_rps p - ps_paid q)) by (apply Z.mul_nonneg_nonneg; lia).
      assert (0 <= SHARE * ps_reward q) by (apply Z.mul_nonneg_nonneg; lia). lia. }
    assert (0 <= SHARE * (fp_rate p * (fp_finish p - fp_last p))) by (repeat apply Z.mul_nonneg_nonneg; lia).
    assert (0 <= SHARE * (dispatched s k - claimed s k)) as Hm by lia.
    destruct (Z.le_gt_cases 0 (dispatched s k - claimed s k)); auto.
    assert (SHARE * (dispatched s k - claimed s k) < 0) by (apply Z.mul_pos_neg; lia). lia.
  Qed.
  (** one user's principal is covered *)
  Lemma user_principal_backed s k p w : farm_inv C s -> fpools s !! k = Some p ->
    ps_dep (pos_get s k w) + locked (pos_get s k w) <= bal (f_led s) k.1.1 (pool_acct C k.1.1).
  Proof.
    intros HI Hp. pose proof (fi_solv _ _ HI k.1.1) as HS. pose proof (reward_liability_nonneg s k.1.1 HI).
    assert (ps_dep (pos_get s k w) + locked (pos_get s k w) <= principal s k.1.1); [|lia].
    unfold pos_get. destruct (fposns s !! (k, w)) as [q|] eqn:E; cbn [default]; unfold id.
    - pose proof (msum_ge_elem (fun kw q => if bool_decide (kw.1.1.1 = k.1.1) then ps_dep q + locked q else 0) (fposns s) (k, w) q) as M.
      cbn [fst] in M. rewrite bool_decide_true in M by auto. apply M; auto.
      intros [k' w'] q' Hq'. cbn. case_bool_decide; [|lia]. apply (pos_all_ok s k' w' q' HI Hq').
    - cbn. apply msum_nonneg. intros [k' w'] q' Hq'. cbn. case_bool_decide; [|lia]. apply (pos_all_ok s k' w' q' HI Hq').
  Qed.
  Lemma redeem_live s k p w : farm_inv C s -> permits P -> fpools s !! k = Some p -> exists s', f_redeem C P s w k = Ok s'.
  Proof.
    intros HI HP Hp. unfold f_redeem, get_fpool. rewrite Hp. cbn [ok_or rbind].
    pose proof (pos_get_ok C s k p w HI Hp) as [D1 _ _ [D2 _]]. pose proof (user_principal_backed s k p w HI Hp) as HB.
    set (q := pos_get s k w) in *. unfold locked in HB. pose proof (locked_split p (f_now s) (ps_locks q)) as HL.
    assert (0 <= lsum fst (List.filter (fun it => negb (matured p (f_now s) it)) (ps_locks q))) as Hnn.
    { apply lsum_nonneg. intros it Hit. apply filter_In in Hit as [Hit _]. apply D2 in Hit. lia. }
    assert (0 <= matured_sum p (f_now s) (ps_locks q)) as Hms.
    { apply lsum_nonneg. intros it Hit. apply D2 in Hit. destruct (matured p (f_now s) it); lia. }
    pose proof (bal_le_iss (f_led s) k.1.1 (pool_acct C k.1.1) (fi_wf _ _ HI)) as Hbi. pose proof (fi_iss _ _ HI k.1.1).
    rewrite (sum_matured_ok p (f_now s) (ps_locks q) 0) by (auto; lia). cbn [rbind]. rewrite Z.add_0_l.
    destruct (0 <? matured_sum p (f_now s) (ps_locks q)) eqn:E; [|eexists; reflexivity].
    destruct (transfer_ok P (f_led s) k.1.1 (pool_acct C k.1.1) w (matured_sum p (f_now s) (ps_locks q)) false HP) as [L HL']; [lia|].
    rewrite HL'. cbn [rbind]. eauto.
  Qed.

  (** the claimable amount of a user is covered by what was dispatched and not claimed *)
  Lemma claimable_nonneg s k p w : farm_inv C s -> fpools s !! k = Some p -> 0 <= claimable p (pos_get s k w) (f_now s).
  Proof.
    intros HI Hp. pose proof (pos_get_ok C s k p w HI Hp) as [A1 A2 A3 _]. destruct (fi_pools _ _ HI _ _ Hp) as [_ B1 B2 _ _ _ _ _].
    pose proof (rps_at_ge p (f_now s) (proj1 B1) B2). unfold claimable. pose proof SHARE_pos.
    assert (0 <= ps_dep (pos_get s k w) * (rps_at p (f_now s) - ps_paid (pos_get s k w)) / SHARE); [|lia].
    apply Z.div_pos; [|lia]. apply Z.mul_nonneg_nonneg; lia.
  Qed.
  Lemma total_claimable_bound s k p : farm_inv C s -> fpools s !! k = Some p -> claimed s k + total_claimable s k <= dispatched s k.
  Proof.
    intros HI Hp. pose proof (budget_at C s k p HI Hp) as HB. destruct (fi_pools _ _ HI _ _ Hp) as [_ B1 B2 _ B5 _ _ _]. pose proof SHARE_pos as HS.
    unfold total_claimable. rewrite Hp.
    assert (SHARE * pool_sum s k (fun q => claimable p q (f_now s)) <= pool_sum s k (wt (rps_at p (f_now s)))) as Hle.
    { unfold pool_sum. rewrite <- msum_mul_const. apply msum_le. intros [k' w] q Hq. cbn. case_bool_decide; [|lia].
      unfold claimable, wt. pose proof (div_le_mul (ps_dep q * (rps_at p (f_now s) - ps_paid q)) SHARE HS). lia. }
    assert (0 <= SHARE * (fp_rate p * (fp_finish p - Z.min (f_now s) (fp_finish p)))) by (repeat apply Z.mul_nonneg_nonneg; lia).
    apply (Z.mul_le_mono_pos_l _ _ SHARE HS). lia.
  Qed.
  Lemma user_claimable_backed s k p w : farm_inv C s -> fpools s !! k = Some p ->
    claimable p (pos_get s k w) (f_now s) <= bal (f_led s) k.1.2 (pool_acct C k.1.2).
  Proof.
    intros HI Hp. pose proof (total_claimable_bound s k p HI Hp) as HT. pose proof (fi_solv _ _ HI k.1.2) as HS.
    assert (0 <= principal s k.1.2) as HP0.
    { apply msum_nonneg. intros [k' w'] q' Hq'. cbn. case_bool_decide; [|lia]. apply (pos_all_ok s k' w' q' HI Hq'). }
    assert (dispatched s k - claimed s k <= reward_liability s k.1.2) as HR.
    { pose proof (msum_ge_elem (fun (k0 : Z*Z*Z) (_ : fpool) => if bool_decide (k0.1.2 = k.1.2) then dispatched s k0 - claimed s k0 else 0) (fpools s) k p) as M.
      cbn beta in M. rewrite bool_decide_true in M by auto. apply M; auto. intros k' p' Hp'. case_bool_decide; [|lia].
      pose proof (total_claimable_bound s k' p' HI Hp'). unfold total_claimable in H0. rewrite Hp' in H0.
      assert (0 <= pool_sum s k' (fun q => claimable p' q (f_now s))); [|lia].
      apply msum_nonneg. intros [k2 w2] q2 Hq2. cbn. case_bool_decide; [|lia]. subst k2.
      pose proof (claimable_nonneg s k' p' w2 HI Hp') as Hc. unfold pos_get in Hc. rewrite Hq2 in Hc. exact Hc. }
    assert (claimable p (pos_get s k w) (f_now s) <= total_claimable s k) as HU.
    { unfold total_claimable. rewrite Hp.
      assert (forall k2 w2 q2, fposns s !! (k2, w2) = Some q2 -> 0 <= (if bool_decide (k2 = k) then claimable p q2 (f_now s) else 0)) as Hall.
      { intros k2 w2 q2 Hq2. case_bool_decide; [|lia]. subst k2. pose proof (claimable_nonneg s k p w2 HI Hp) as Hc.
        unfold pos_get in Hc. rewrite Hq2 in Hc. exact Hc. }
      unfold pos_get. destruct (fposns s !! (k, w)) as [q|] eqn:E; cbn [default]; unfold id.
      - pose proof (msum_ge_elem (fun (kw : Z*Z*Z*Z) q => if bool_decide (kw.1 = k) then claimable p q (f_now s) else 0) (fposns s) (k, w) q) as M.
        cbn [fst] in M. rewrite bool_decide_true in M by auto. apply M; auto. intros [k2 w2] q2 Hq2. apply (Hall k2 w2 q2 Hq2).
      - unfold claimable at 1. cbn [ps_reward ps_dep pos0]. rewrite Z.mul_0_l, Z.div_0_l by (pose proof SHARE_pos; lia).
        apply msum_nonneg. intros [k2 w2] q2 Hq2. apply (Hall k2 w2 q2 Hq2). }
    lia.
  Qed.
  (** settling a user succeeds exactly when the accumulator fits *)
  Definition acc_fits (p : fpool) (now : Z) : Prop := rps_at p now <= U128MAX.
  Lemma update_reward_live s k p w : farm_inv C s -> fpools s !! k = Some p -> acc_fits p (f_now s) ->
    exists s1, update_reward s (Some w) k = Ok s1.
  Proof.
    intros HI Hp HF. unfold update_reward, get_fpool. rewrite Hp. cbn [ok_or rbind].
    pose proof (fi_pools _ _ HI _ _ Hp) as [A1 A2 A3 A4 A5 A6 A7 A8]. pose proof SHARE_pos as HS.
    assert (reward_per_share p (f_now s) = Ok (rps_at p (f_now s))) as E1.
    { unfold reward_per_share. unfold acc_fits, rps_at in *. destruct (fp_total p =? 0) eqn:E; auto.
      unfold saturating_sub. rewrite last_applicable_min. rewrite Z.max_comm in HF. rewrite (Z.max_comm 0) in *.
      set (ad := Z.max (Z.min (f_now s) (fp_finish p) - fp_last p) 0 * fp_rate p * SHARE / fp_total p) in *.
      assert (0 <= ad) by (apply Z.div_pos; [repeat apply Z.mul_nonneg_nonneg; lia|lia]).
      unfold to_u128. assert (chk ad = Some ad) as -> by (apply chk_some; lia). cbn [ok_or rbind].
      unfold checked_add. assert (chk (fp_rps p + ad) = Some (fp_rps p + ad)) as -> by (apply chk_some; lia). reflexivity. }
    unfold update_rps. rewrite E1. cbn [rbind].
    assert (update_rps p (f_now s) = Ok (mkFPool (fp_active p) (fp_total p) (fp_unlock p) (fp_cool p) (fp_dur p) (fp_finish p) (last_applicable p (f_now s)) (fp_rate p) (rps_at p (f_now s)))) as E2
      by (unfold update_rps; rewrite E1; reflexivity).
    destruct (update_rps_inv C s k p _ HI Hp E2) as (_ & _ & _ & _ & _ & _ & _ & _ & _ & E3).
    rewrite E3. cbn [rbind fp_rps].
    pose proof (pos_get_ok C s k p w HI Hp) as [B1 B2 B3 B4].
    pose proof (rps_at_ge p (f_now s) (proj1 A2) A3).
    unfold checked_sub. assert (forall x, 0 <= x <= U128MAX -> chk x = Some x) as Hc by (intros; apply chk_some; auto).
    rewrite Hc by (unfold acc_fits in HF; lia). cbn [ok_or rbind]. unfold to_u128.
    pose proof (claimable_nonneg s k p w HI Hp) as N1. pose proof (user_claimable_backed s k p w HI Hp) as N2.
    pose proof (bal_le_iss (f_led s) k.1.2 (pool_acct C k.1.2) (fi_wf _ _ HI)) as Hbi. pose proof (fi_iss _ _ HI k.1.2).
    unfold claimable in N1, N2. rewrite Hc by lia. cbn [ok_or rbind]. eauto.
  Qed.
  Lemma claim_live s k p w : farm_inv C s -> permits P -> fpools s !! k = Some p -> acc_fits p (f_now s) ->
    exists s', f_claim C P s w k = Ok s'.
  Proof.
    intros HI HP Hp HF. destruct (update_reward_live s k p w HI Hp HF) as [s1 E1].
    unfold f_claim, get_fpool. rewrite Hp. cbn [ok_or rbind]. rewrite E1. cbn [rbind].
    destruct (update_reward_user C s w k s1 HI E1) as (p0 & p1 & F0 & _ & _ & _ & _ & _ & _ & _ & _ & _ & F10 & _ & F12 & _ & _ & _).
    assert (p0 = p) as -> by congruence. rewrite F10, F12. cbn [ps_reward ps_dep ps_locks ps_paid].
    destruct (0 <? claimable p (pos_get s k w) (f_now s)) eqn:E; [|cbn [rbind]; eauto].
    destruct (transfer_ok P (f_led s) k.1.2 (pool_acct C k.1.2) w (claimable p (pos_get s k w) (f_now s)) false HP) as [L HL].
    { pose proof (user_claimable_backed s k p w HI Hp). lia. }
    rewrite HL. cbn [rbind]. eauto.
  Qed.
  Lemma withdraw_live s k p w amount : farm_inv C s -> permits P -> fpools s !! k = Some p -> acc_fits p (f_now s) ->
    0 < amount <= ps_dep (pos_get s k w) -> fp_unlock p <= f_now s ->
    (fp_cool p = 0 \/ Z.of_nat (length (ps_locks (pos_get s k w))) < max_locks C) ->
    exists s', f_withdraw C P s w k amount = Ok s'.
  Proof.
    intros HI HP Hp HF Ha Hu Hl. destruct (update_reward_live s k p w HI Hp HF) as [s1 E1].
    unfold f_withdraw, get_fpool. rewrite Hp. cbn [ok_or rbind].
    assert (negb (amount =? 0) = true) as -> by lia. assert (amount <=? ps_dep (pos_get s k w) = true) as -> by lia. cbn [ensure rbind].
    rewrite E1. cbn [rbind].
    destruct (update_reward_user C s w k s1 HI E1) as (p0 & p1 & F0 & F1 & F2 & F3 & F4 & F5 & F6 & F7 & F8 & F9 & F10 & F11 & F12 & F13 & F14 & HI1).
    assert (p0 = p) as -> by congruence. rewrite F1, lookup_insert. cbn [ok_or rbind].
    rewrite F8, F13. assert (fp_unlock p <=? f_now s = true) as -> by lia. cbn [ensure rbind].
    pose proof (user_principal_backed s k p w HI Hp) as HB. pose proof (locked_nonneg s k p w HI Hp).
    pose proof (fi_pools _ _ HI _ _ Hp) as [A1 A2 _ _ _ _ _ _].
    assert (ps_dep (pos_get s k w) <= fp_total p) as Hdt.
    { rewrite A1. unfold pos_get. unfold pool_sum. destruct (fposns s !! (k, w)) as [q|] eqn:E; cbn [default]; unfold id.
      - pose proof (msum_ge_elem (fun (kw : Z*Z*Z*Z) q => if bool_decide (kw.1 = k) then ps_dep q else 0) (fposns s) (k, w) q) as M.
        cbn [fst] in M. rewrite bool_decide_true in M by auto. apply M; auto.
        intros [k' w'] q' Hq'. cbn. case_bool_decide; [|lia]. apply (pos_all_ok s k' w' q' HI Hq').
      - cbn. apply msum_nonneg. intros [k' w'] q' Hq'. cbn. case_bool_decide; [|lia]. apply (pos_all_ok s k' w' q' HI Hq'). }
    assert (forall x, 0 <= x <= U128MAX -> chk x = Some x) as Hc by (intros; apply chk_some; auto).
    unfold checked_sub. rewrite F4, F10. cbn [ps_dep ps_locks ps_reward ps_paid]. rewrite Hc by lia. cbn [ok_or rbind].
    rewrite Hc by lia. cbn [ok_or rbind]. rewrite F7, F12.
    destruct (fp_cool p =? 0) eqn:E.
    - destruct (transfer_ok P (f_led s) k.1.1 (pool_acct C k.1.1) w amount false HP) as [L HL]; [lia|]. rewrite HL. cbn [rbind]. eauto.
    - destruct Hl as [Hl|Hl]; [lia|]. assert (Z.of_nat (length (ps_locks (pos_get s k w))) <? max_locks C = true) as -> by lia. cbn [rbind]. eauto.
  Qed.
End f3.
