From Verif Require Import Base MapSum Ledger AmmModel AmmSpec AmmProofs AmmInv AmmProofs2.

(** operations that are not liquidity events of pool [k] *)
Definition quiet_on (k : Z * Z) (o : amm_op) : Prop :=
  match o with
  | OAdd _ pr _ _ | ORemove _ pr _ => pair_key pr.1 pr.2 <> k
  | _ => True
  end.

Section p3.
  Context (C : amm_cfg) (P : policy).

  Lemma step_quiet s o s' k p :
    cfg_ok C -> amm_inv C s -> amm_op_ok C s o -> quiet_on k o ->
    amm_step C P s o = Ok s' -> pools s !! k = Some p ->
    exists p', pools s' !! k = Some p' /\ p_lp p' = p_lp p /\ p_base_last p' = p_base_last p /\
      p_quote_last p' = p_quote_last p /\ kprod p <= kprod p' /\ iss (led s') (p_lp p) = iss (led s) (p_lp p).
  Proof.
    intros HC I Hop Hqu H Hk. pose proof (inv_iss_pos C s k p HC I Hk) as HT0.
    destruct HC as (HC1 & HC2 & HC3). assert (HC : cfg_ok C) by (repeat split; tauto).
    destruct (inv_pos C s I k p Hk) as [Hb Hq].
    destruct o; cbn in Hop, H, Hqu; unfold u128_ok in *.
    - destruct pair as [a b]. destruct Hop as (_ & ? & ?).
      apply add_liquidity_spec in H; try lia; [|eapply inv_nonneg; eauto].
      destruct H as (q & p1 & L1 & p2 & L2 & ib & iq & f & Hne & Hp & Hid & Hib & Hiq & _ & _ & Hf & Hadd & ->).
      destruct (mint_fee_spec _ _ _ _ _ _ Hf) as (recv & F0 & F1 & F2 & F3 & _ & _ & _ & F4 & F5 & F6 & F7).
      unfold pair_key in Hadd.
      destruct (add_liq_spec _ _ _ _ _ _ _ _ _ _ _ (proj1 Hib) (proj1 Hiq) Hadd) as
        (liq & locked & A0 & A1 & A2 & A3 & A4 & _ & _ & _ & A5 & A6 & A7 & A8 & A9 & A10 & _).
      exists p. cbn in *. rewrite lookup_insert_ne by auto. repeat (split; [auto; lia|]).
      rewrite A9, F5, F3. rewrite !bool_decide_false; [lia|];
      (intros E; apply Hqu; symmetry; eapply (inv_uniq C s I k p _ q); eauto).
    - destruct pair as [a b]. apply remove_liquidity_spec in H.
      destruct H as (q & p1 & L1 & p2 & L2 & f & rb & rq & Hne & Hp & Hf & Hrem & ->).
      destruct (mint_fee_spec _ _ _ _ _ _ Hf) as (recv & F0 & F1 & F2 & F3 & _ & _ & _ & F4 & F5 & F6 & F7).
      unfold pair_key in Hrem. apply remove_liq_spec in Hrem. cbn zeta in Hrem.
      destruct Hrem as (A0 & A1 & A2 & A3 & A4 & A5 & A6 & A7 & A8 & A9 & _ & _ & _ & A10 & A11 & A12 & _).
      exists p. cbn in *. rewrite lookup_insert_ne by auto. repeat (split; [auto; lia|]).
      rewrite A11, F5, F3. rewrite !bool_decide_false; [lia|];
      (intros E; apply Hqu; symmetry; eapply (inv_uniq C s I k p _ q); eauto).
    - destruct pair as [a b]. destruct Hop as (_ & ? & ?). apply create_pool_spec in H.
      destruct H as (q & L & _ & Hne & Hnone & Hiss & Hadd & ->).
      set (am := if a <? b then (amounts.2, amounts.1) else amounts) in *.
      assert (Ham : 0 <= am.1 /\ 0 <= am.2) by (subst am; destruct (a <? b); cbn; lia).
      clearbody am. destruct am as [ib iq]. cbn in Ham. unfold pair_key in Hadd.
      destruct (add_liq_spec _ _ _ _ _ _ _ _ _ _ _ (proj1 Ham) (proj2 Ham) Hadd) as
        (liq & locked & A0 & A1 & A2 & A3 & A4 & _ & _ & _ & A5 & A6 & A7 & A8 & A9 & A10 & _).
      exists p. cbn. rewrite lookup_insert_ne by congruence. repeat (split; [auto; lia|]).
      rewrite A9. cbn. rewrite bool_decide_false; [lia|]. intros E. rewrite E in *. lia.
    - bstep H x E. destruct x as [out s1]. injection H as <-. destruct pair as [ai ao].
      destruct Hop as ([Hu1 Hu2] & ? & ?). pose proof E as E0.
      apply swap_full in E; auto; try lia; [|eapply inv_nonneg; eauto].
      destruct E as (q & q' & Hq0 & Hq1 & Hkp & _ & _ & Hi & _ & _ & Hlp).
      apply do_swap_spec in E0.
      destruct E0 as (r & r1 & r2 & L1 & L2 & Hne & Hr & Hs1 & _ & _ & Hr1 & Hor & _).
      apply do_update_oracle_spec in Hor. destruct Hor as (Hor & _).
      destruct (decide (k = pair_key ai ao)) as [->|Hkne].
      + rewrite Hk in Hq0, Hr. injection Hq0 as <-. injection Hr as <-. exists q'. rewrite Hq1, lookup_insert.
        rewrite Hs1 in Hq1. cbn in Hq1.
        assert (q' = r2) as ->. { apply (f_equal (fun m => m !! pair_key ai ao)) in Hq1. rewrite !lookup_insert in Hq1. congruence. }
        repeat (split; [auto; lia|]).
        split; [rewrite Hor, Hr1; destruct (ai <? ao); auto|].
        split; [rewrite Hor, Hr1; destruct (ai <? ao); auto|]. split; auto.
      + exists p. rewrite Hq1, lookup_insert_ne by auto. repeat (split; [auto; lia|]). auto.
    - unfold update_protocol_fee in H. bstep H u E. injection H as <-. exists p. repeat split; auto; lia.
    - unfold update_protocol_fee_receiver in H. bstep H u E. injection H as <-. exists p. repeat split; auto; lia.
    - bstep H L E. injection H as <-. exists p. repeat (split; [auto; lia|]). cbn.
      apply transfer_spec in E. destruct E as (_ & E & _). auto.
    - bstep H L E. injection H as <-. exists p. repeat (split; [auto; lia|]). cbn.
      apply mint_spec in E. destruct E as (_ & _ & E). rewrite E. rewrite bool_decide_false; [lia|].
      intros Ea. destruct Hop as (_ & Hn). apply Hn. exists k, p. auto.
    - bstep H L E. injection H as <-. exists p. repeat (split; [auto; lia|]). cbn.
      apply burn_spec in E. destruct E as (_ & _ & _ & E). rewrite E. rewrite bool_decide_false; [lia|].
      intros Ea. destruct Hop as (_ & _ & Hn). apply Hn. exists k, p. auto.
  Qed.

  Lemma history_inv s os s' : cfg_ok C -> amm_inv C s -> amm_history C P s os s' -> amm_inv C s'.
  Proof.
    intros HC I H. induction H as [s | s o os s' Hop H IH]; auto. apply IH.
    unfold amm_exec. destruct (amm_step C P s o) eqn:E; auto. eapply step_inv; eauto.
  Qed.

  Lemma history_quiet s os s' k p :
    cfg_ok C -> amm_inv C s -> amm_history C P s os s' -> Forall (quiet_on k) os -> pools s !! k = Some p ->
    exists p', pools s' !! k = Some p' /\ p_lp p' = p_lp p /\ p_base_last p' = p_base_last p /\
      p_quote_last p' = p_quote_last p /\ kprod p <= kprod p' /\ iss (led s') (p_lp p) = iss (led s) (p_lp p).
  Proof.
    intros HC I H. revert p. induction H as [s | s o os s' Hop H IH]; intros p Hf Hk.
    - exists p. repeat split; auto; lia.
    - inversion Hf as [|? ? Hf1 Hf2]; subst. revert H IH. unfold amm_exec.
      destruct (amm_step C P s o) as [s1|e|] eqn:E; intros H IH; [|apply IH; auto|apply IH; auto].
      destruct (step_quiet s o s1 k p HC I Hop Hf1 E Hk) as (p1 & K1 & K2 & K3 & K4 & K5 & K6).
      pose proof (step_inv C P s o s1 HC I Hop E) as I1.
      destruct (IH I1 p1 Hf2 K1) as (p2 & J1 & J2 & J3 & J4 & J5 & J6).
      exists p2. rewrite K2 in J6. repeat split; auto; try congruence; lia.
  Qed.

  (** the fee mint of a liquidity event after a quiet history since the previous fee-on liquidity event *)
  Lemma fee_growth s0 os s k p0 p f p' L' :
    cfg_ok C -> amm_inv C s0 -> pools s0 !! k = Some p0 ->
    p_base_last p0 = p_base p0 -> p_quote_last p0 = p_quote p0 ->
    amm_history C P s0 os s -> Forall (quiet_on k) os -> pools s !! k = Some p ->
    do_mint_protocol_fee P s p = Ok (f, p', L') ->
    0 <= f /\ iss (led s0) (p_lp p) = iss (led s) (p_lp p) /\ iss L' (p_lp p) = iss (led s) (p_lp p) + f /\
    Z.sqrt (kprod p0) * (iss (led s) (p_lp p) + f) <= Z.sqrt (kprod p) * iss (led s) (p_lp p).
  Proof.
    intros HC I Hk0 Hl1 Hl2 Hh Hq Hk Hf.
    destruct (history_quiet _ _ _ _ _ HC I Hh Hq Hk0) as (q & K1 & K2 & K3 & K4 & K5 & K6).
    rewrite Hk in K1. injection K1 as <-. pose proof (history_inv _ _ _ HC I Hh) as I1.
    destruct (inv_pos C s I1 k p Hk) as [Hb Hqq]. destruct (inv_pos C s0 I k p0 Hk0) as [Hb0 Hq0].
    pose proof (inv_iss_pos C s k p HC I1 Hk). destruct HC as (_ & ? & _).
    assert (E0 : 0 <= p_base_last p * p_quote_last p) by (rewrite K3, K4, Hl1, Hl2; nia).
    destruct (fee_bound P s p f p' L') as (F1 & F2 & F3 & F4 & F5); auto; try lia.
    assert (E : p_base_last p * p_quote_last p = kprod p0) by (unfold kprod; rewrite K3, K4, Hl1, Hl2; auto).
    rewrite E in *. rewrite K2 in *. repeat split; auto.
    apply F4. apply Z.sqrt_le_mono. auto.
  Qed.

  Lemma last_recorded_add s who pr d m s' :
    reserves_nonneg s -> 0 <= d.1 -> 0 <= d.2 -> protocol_fee_on s = true ->
    add_liquidity C P s who pr d m = Ok s' ->
    exists p', pools s' !! pair_key pr.1 pr.2 = Some p' /\ p_base_last p' = p_base p' /\ p_quote_last p' = p_quote p'.
  Proof.
    intros Hn H1 H2 Hon H. destruct pr as [a b]. apply add_liquidity_spec in H; auto.
    destruct H as (q & p1 & L1 & p2 & L2 & ib & iq & f & Hne & Hp & Hid & Hib & Hiq & _ & _ & Hf & Hadd & ->).
    destruct (add_liq_spec _ _ _ _ _ _ _ _ _ _ _ (proj1 Hib) (proj1 Hiq) Hadd) as
        (liq & locked & A0 & A1 & A2 & A3 & A4 & _ & _ & _ & A5 & A6 & A7 & A8 & A9 & A10 & A11 & A12).
    exists p2. cbn. rewrite lookup_insert. split; auto.
    assert (protocol_fee_on (set_led s L1) = protocol_fee_on s) as E by reflexivity.
    rewrite E, Hon in *. auto.
  Qed.

  (** ** C05 / C06 in the caller's asset order *)
  Lemma ideal_full p b q ib iq :
    get_ideal_amounts p (b, q) = Ok (ib, iq) -> (ib = b \/ iq = q).
  Proof.
    intros H. unfold get_ideal_amounts in H. destruct (pool_is_empty p).
    { injection H as <- <-. auto. }
    bstep H x Ex. destruct (_ <=? _).
    - injection H as <- <-. auto.
    - bstep H y Ey. injection H as <- <-. auto.
  Qed.

  Lemma add_liquidity_bounds s who a b desired minimum s' :
    cfg_ok C -> amm_inv C s -> u128_ok desired.1 -> u128_ok desired.2 -> user C who ->
    add_liquidity C P s who (a, b) desired minimum = Ok s' ->
    exists p p' ta tb fee liq,
      let k := pair_key a b in let lp := p_lp p in
      pools s !! k = Some p /\ pools s' = <[k := p']> (pools s) /\ a <> b /\
      minimum.1 <= ta <= desired.1 /\ minimum.2 <= tb <= desired.2 /\ 0 <= ta /\ 0 <= tb /\
      (ta = desired.1 \/ tb = desired.2) /\
      reserve k p' a = reserve k p a + ta /\ reserve k p' b = reserve k p b + tb /\
      (forall w, w <> who -> w <> amm_acct C -> a <> lp -> b <> lp ->
         bal (led s') a w = bal (led s) a w /\ bal (led s') b w = bal (led s) b w) /\
      (a <> lp -> bal (led s') a who = bal (led s) a who - ta) /\
      (b <> lp -> bal (led s') b who = bal (led s) b who - tb) /\
      0 <= liq /\ 0 <= fee /\ (protocol_fee_on s = false -> fee = 0) /\
      iss (led s') lp = iss (led s) lp + fee + liq /\
      (a <> lp -> b <> lp -> preceiver s <> Some who -> bal (led s') lp who = bal (led s) lp who + liq) /\
      liq * reserve k p a <= ta * (iss (led s) lp + fee) /\
      liq * reserve k p b <= tb * (iss (led s) lp + fee).
  Proof.
    intros HC I Hd1 Hd2 [Hu1 Hu2] H. unfold u128_ok in *.
    apply add_liquidity_spec in H; try lia; [|eapply inv_nonneg; eauto].
    destruct H as (p & p1 & L1 & p2 & L2 & ib & iq & f & Hne & Hp & Hid & Hib & Hiq & Hm1 & Hm2 & Hf & Hadd & ->).
    assert (Hrecv : exists recv, 0 <= f /\ p_base p1 = p_base p /\ p_quote p1 = p_quote p /\ p_lp p1 = p_lp p /\
      (forall a w, bal L1 a w = bal (led s) a w + at_ (p_lp p) recv a w f) /\
      (forall a, iss L1 a = iss (led s) a + (if bool_decide (a = p_lp p) then f else 0)) /\
      (protocol_fee_on s = false -> f = 0) /\ (f <> 0 -> preceiver s = Some recv)).
    { destruct (mint_fee_spec _ _ _ _ _ _ Hf) as (recv & F0 & F1 & F2 & F3 & _ & _ & _ & F4 & F5 & F6 & F7).
      destruct (preceiver s) as [r|] eqn:Er.
      - destruct (decide (f = 0)) as [->|Hf0].
        + exists r. repeat (split; [solve [auto]|]). split.
          { intros x w. rewrite F4. unfold at_. repeat case_bool_decide; auto. }
          split; auto. 
        + exists r. repeat (split; [solve [auto]|]).
          unfold do_mint_protocol_fee in Hf. destruct (negb _); [injection Hf as <- _ _; lia|].
          destruct (_ <=? _); [injection Hf as <- _ _; lia|].
          bstep Hf rc Erc. bstep Hf sc0 Esc. bstep Hf q Eq0. bstep Hf f' Ef. bstep Hf rr Err. bstep Hf L Em.
          injection Hf as <- _ <-. rewrite Er in Err. injection Err as <-. apply mint_spec in Em.
          split; [apply Em|]. split; [apply Em|]. split; [tauto|auto].
      - exists recv. repeat (split; [solve [auto]|]). split; [tauto|].
        intros Hf0. exfalso. apply Hf0. apply F7. unfold protocol_fee_on. rewrite Er. rewrite bool_decide_false; [apply andb_false_r|].
        intros [x Hx]. discriminate. }
    clear Hf. destruct Hrecv as (recv & F0 & F1 & F2 & F3 & F4 & F5 & F7 & F8).
    unfold pair_key in Hadd.
    destruct (add_liq_spec _ _ _ _ _ _ _ _ _ _ _ (proj1 Hib) (proj1 Hiq) Hadd) as
        (liq & locked & A0 & A1 & A2 & A3 & A4 & _ & _ & _ & A5 & A6 & A7 & A8 & A9 & A10 & _).
    pose proof (inv_iss_pos C s _ p HC I Hp) as HT0. cbn [led set_led] in *.
    destruct HC as (HC1 & HC2 & HC3).
    destruct (inv_pos C s I _ p Hp) as [Hb Hq].
    assert (HF : iss L1 (p_lp p1) = iss (led s) (p_lp p) + f) by (rewrite F5, F3, bool_decide_true; auto).
    rewrite HF in A7. destruct A7 as [(E & _)|(_ & -> & _ & _ & E)]; [lia|].
    rewrite F1, F2 in E.
    pose proof (div_le_mul (ib * (iss (led s) (p_lp p) + f)) (p_base p) ltac:(lia)) as D1.
    pose proof (div_le_mul (iq * (iss (led s) (p_lp p) + f)) (p_quote p) ltac:(lia)) as D2.
    assert (G1 : liq * p_base p <= ib * (iss (led s) (p_lp p) + f)) by nia.
    assert (G2 : liq * p_quote p <= iq * (iss (led s) (p_lp p) + f)) by nia.
    clear D1 D2 E.
    exists p, p2, (if a <? b then iq else ib), (if a <? b then ib else iq), f, liq.
    cbv zeta. split; [auto|]. split; [auto|]. split; [auto|].
    apply ideal_full in Hid || idtac.
    assert (Hids : ib = (if a <? b then (desired.2, desired.1) else desired).1 \/ iq = (if a <? b then (desired.2, desired.1) else desired).2).
    { destruct (if a <? b then (desired.2, desired.1) else desired). apply ideal_full in Hid. auto. }
    assert (Hba : bal L2 a who = bal L2 a who) by auto. clear Hba.
    assert (HL2 : forall x w, w <> amm_acct C ->
       bal L2 x w = bal (led s) x w + at_ (p_lp p) recv x w f + at_ (p_lp p) who x w liq
                     - at_ (Z.max a b) who x w ib - at_ (Z.min a b) who x w iq).
    { intros x w Hw. rewrite A8, F4, F3. rewrite !(at_other _ (amm_acct C)) by auto.
      replace (at_ (p_lp p) (lock_acct C) x w 0) with 0 by (unfold at_; case_bool_decide; auto). lia. }
    unfold reserve, pair_key in *; cbn [fst snd] in *. rewrite A2, A3, F1, F2.
    assert (Hiss : iss L2 (p_lp p) = iss (led s) (p_lp p) + f + liq).
    { rewrite A9, F3, bool_decide_true by auto. rewrite F5, bool_decide_true by auto. lia. }
    assert (Hrc : at_ (p_lp p) recv (p_lp p) who f = 0 \/ preceiver s = Some who).
    { unfold at_. case_bool_decide; auto. destruct (decide (f = 0)); auto. right. destruct_and?. subst. auto. }
    destruct (a <? b) eqn:Eab; cbn [fst snd] in *.
    - rewrite (Z.max_r a b), (Z.min_l a b) in * by lia.
      rewrite !(bool_decide_false (a = b)), !(bool_decide_false (b = a)), !bool_decide_true by lia.
      repeat (split; [first [lia | tauto]|]).
      split. { intros w Hw Hw2 Ha Hb'. cbn [led set_pool]. rewrite !HL2 by auto. unfold at_. rewrite !bool_decide_false by tauto. lia. }
      split. { intros Ha. cbn [led set_pool]. rewrite HL2 by auto. unfold at_. repeat case_bool_decide; destruct_and?; try congruence; try tauto; lia. }
      split. { intros Ha. cbn [led set_pool]. rewrite HL2 by auto. unfold at_. repeat case_bool_decide; destruct_and?; try congruence; try tauto; lia. }
      repeat (split; [first [lia | tauto]|]).
      split. { intros Ha Hb' Hr. cbn [led set_pool]. rewrite HL2 by auto. destruct Hrc as [->|]; [|tauto]. rewrite !at_same.
               rewrite (bool_decide_true (p_lp p = p_lp p)) by auto. rewrite !bool_decide_false by congruence. lia. }
      split; lia.
    - rewrite (Z.max_l a b), (Z.min_r a b) in * by lia.
      rewrite !(bool_decide_false (a = b)), !(bool_decide_false (b = a)), !bool_decide_true by lia.
      repeat (split; [first [lia | tauto]|]).
      split. { intros w Hw Hw2 Ha Hb'. cbn [led set_pool]. rewrite !HL2 by auto. unfold at_. rewrite !bool_decide_false by tauto. lia. }
      split. { intros Ha. cbn [led set_pool]. rewrite HL2 by auto. unfold at_. repeat case_bool_decide; destruct_and?; try congruence; try tauto; lia. }
      split. { intros Ha. cbn [led set_pool]. rewrite HL2 by auto. unfold at_. repeat case_bool_decide; destruct_and?; try congruence; try tauto; lia. }
      repeat (split; [first [lia | tauto]|]).
      split. { intros Ha Hb' Hr. cbn [led set_pool]. rewrite HL2 by auto. destruct Hrc as [->|]; [|tauto]. rewrite !at_same.
               rewrite (bool_decide_true (p_lp p = p_lp p)) by auto. rewrite !bool_decide_false by congruence. lia. }
      split; lia.
  Qed.
End p3.
