From Verif Require Import Base MapSum Ledger AmmModel AmmSpec AmmProofs AmmInv.

Section p2.
  Context (C : amm_cfg) (P : policy).

  (** ** C03: share value *)
  Definition share_ok (s s' : amm) (k : Z * Z) (p p' : pool) : Prop :=
    p_lp p' = p_lp p /\
    kprod p * (iss (led s') (p_lp p) * iss (led s') (p_lp p)) <=
    kprod p' * (iss (led s) (p_lp p) * iss (led s) (p_lp p)).

  Lemma add_share b q ib iq T :
    0 < b -> 0 < q -> 0 <= ib -> 0 <= iq -> 0 < T ->
    let liq := Z.min (ib * T / b) (iq * T / q) in 0 <= liq ->
    b * q * ((T + liq) * (T + liq)) <= (b + ib) * (q + iq) * (T * T).
  Proof.
    intros Hb Hq Hib Hiq HT liq Hl.
    pose proof (div_le_mul (ib * T) b Hb). pose proof (div_le_mul (iq * T) q Hq).
    assert (A1 : b * (T + liq) <= (b + ib) * T) by (subst liq; nia).
    assert (A2 : q * (T + liq) <= (q + iq) * T) by (subst liq; nia).
    clearbody liq.
    replace (b * q * ((T + liq) * (T + liq))) with ((b * (T + liq)) * (q * (T + liq))) by ring.
    replace ((b + ib) * (q + iq) * (T * T)) with (((b + ib) * T) * ((q + iq) * T)) by ring.
    apply Z.mul_le_mono_nonneg; nia.
  Qed.

  Lemma remove_share b q l T :
    0 < b -> 0 < q -> 0 <= l <= T -> 0 < T ->
    b * q * ((T - l) * (T - l)) <= (b - l * b / T) * (q - l * q / T) * (T * T).
  Proof.
    intros Hb Hq Hl HT.
    pose proof (div_le_mul (l * b) T HT) as D1. pose proof (div_le_mul (l * q) T HT) as D2.
    set (x := l * b / T) in *. set (y := l * q / T) in *. clearbody x y.
    assert (A1 : b * (T - l) <= (b - x) * T) by nia.
    assert (A2 : q * (T - l) <= (q - y) * T) by nia.
    replace (b * q * ((T - l) * (T - l))) with ((b * (T - l)) * (q * (T - l))) by ring.
    replace ((b - x) * (q - y) * (T * T)) with (((b - x) * T) * ((q - y) * T)) by ring.
    apply Z.mul_le_mono_nonneg; nia.
  Qed.

  Lemma inv_iss_pos s k p : cfg_ok C -> amm_inv C s -> pools s !! k = Some p -> min_liq C <= iss (led s) (p_lp p).
  Proof.
    intros (_ & Hm & _) I Hk. pose proof (inv_lock C s I k p Hk).
    pose proof (bal_le_iss (led s) (p_lp p) (lock_acct C) (inv_wf C s I)). lia.
  Qed.

  Lemma kprod_nonneg s k p : amm_inv C s -> pools s !! k = Some p -> 0 < kprod p.
  Proof. intros I Hk. destruct (inv_pos C s I k p Hk). unfold kprod. nia. Qed.

  (** unchanged pool and issuance *)
  Lemma share_same s s' k p :
    iss (led s') (p_lp p) = iss (led s) (p_lp p) -> share_ok s s' k p p.
  Proof. intros E. split; auto. rewrite E. lia. Qed.

  Lemma step_share s o s' k p :
    cfg_ok C -> amm_inv C s -> amm_op_ok C s o -> protocol_fee_on s = false ->
    amm_step C P s o = Ok s' -> pools s !! k = Some p ->
    exists p', pools s' !! k = Some p' /\ share_ok s s' k p p'.
  Proof.
    intros HC I Hop Hoff H Hk. pose proof (inv_iss_pos s k p HC I Hk) as HT0.
    assert (HT : 0 < iss (led s) (p_lp p)) by (destruct HC as (_&?&_); lia).
    destruct (inv_pos C s I k p Hk) as [Hb Hq].
    destruct o; cbn in Hop, H; unfold u128_ok in *.
    - (* add *) destruct pair as [a b]. destruct Hop as (_ & ? & ?).
      apply add_liquidity_spec in H; try lia; [|eapply inv_nonneg; eauto].
      destruct H as (q & p1 & L1 & p2 & L2 & ib & iq & f & Hne & Hp & Hid & Hib & Hiq & _ & _ & Hf & Hadd & ->).
      destruct (mint_fee_spec _ _ _ _ _ _ Hf) as (recv & F0 & F1 & F2 & F3 & _ & _ & _ & F4 & F5 & F6 & F7).
      destruct (F7 Hoff) as [-> ->]. unfold pair_key in Hadd.
      destruct (add_liq_spec _ _ _ _ _ _ _ _ _ _ _ (proj1 Hib) (proj1 Hiq) Hadd) as
        (liq & locked & A0 & A1 & A2 & A3 & A4 & _ & _ & _ & A5 & A6 & A7 & A8 & A9 & A10 & _).
      cbn [led set_led] in *.
      destruct (decide (k = pair_key a b)) as [->|Hkne].
      + rewrite Hk in Hp. injection Hp as <-. exists p2. cbn. rewrite lookup_insert. split; auto.
        split; [congruence|]. rewrite A9, F3. rewrite bool_decide_true by auto.
        destruct A7 as [(E & _)|(_ & -> & _ & _ & E)]; [rewrite F3 in E; lia|].
        unfold kprod. rewrite A2, A3, F1, F2. rewrite Z.add_0_l. rewrite F1, F2, F3 in E. rewrite E in A0 |- *.
        apply add_share; lia.
      + exists p. cbn. rewrite lookup_insert_ne by auto. split; auto. apply share_same. cbn.
        rewrite A9. rewrite bool_decide_false; [lia|]. rewrite F3. intros E.
        apply Hkne. eapply (inv_uniq C s I k p _ q); eauto.
    - (* remove *) destruct pair as [a b]. destruct Hop as ([Hu1 Hu2] & ?).
      apply remove_liquidity_spec in H.
      destruct H as (q & p1 & L1 & p2 & L2 & f & rb & rq & Hne & Hp & Hf & Hrem & ->).
      destruct (mint_fee_spec _ _ _ _ _ _ Hf) as (recv & F0 & F1 & F2 & F3 & _ & _ & _ & F4 & F5 & F6 & F7).
      destruct (F7 Hoff) as [-> ->]. unfold pair_key in Hrem.
      apply remove_liq_spec in Hrem. cbn zeta in Hrem.
      destruct Hrem as (A0 & A1 & A2 & A3 & A4 & A5 & A6 & A7 & A8 & A9 & _ & _ & _ & A10 & A11 & A12 & _).
      destruct (decide (k = pair_key a b)) as [->|Hkne].
      + rewrite Hk in Hp. injection Hp as <-. exists p2. cbn. rewrite lookup_insert. split; auto.
        split; [congruence|]. rewrite A11, F3. rewrite bool_decide_true by auto.
        unfold kprod. rewrite A7, A8, A3, A4, F1, F2, ?F3.
        apply remove_share; try lia. split; [lia|].
        destruct (decide (0 < liquidity)); [|lia].
        pose proof (bal_le_iss (led s) (p_lp p) who (inv_wf C s I)). rewrite F3 in A2. lia.
      + exists p. cbn. rewrite lookup_insert_ne by auto. split; auto. apply share_same. cbn.
        rewrite A11. rewrite bool_decide_false; [lia|]. rewrite F3. intros E.
        apply Hkne. eapply (inv_uniq C s I k p _ q); eauto.
    - (* create *) destruct pair as [a b]. destruct Hop as (_ & ? & ?). apply create_pool_spec in H.
      destruct H as (q & L & _ & Hne & Hnone & Hiss & Hadd & ->).
      set (am := if a <? b then (amounts.2, amounts.1) else amounts) in *.
      assert (Ham : 0 <= am.1 /\ 0 <= am.2) by (subst am; destruct (a <? b); cbn; lia).
      clearbody am. destruct am as [ib iq]. cbn in Ham. unfold pair_key in Hadd.
      destruct (add_liq_spec _ _ _ _ _ _ _ _ _ _ _ (proj1 Ham) (proj2 Ham) Hadd) as
        (liq & locked & A0 & A1 & A2 & A3 & A4 & _ & _ & _ & A5 & A6 & A7 & A8 & A9 & A10 & _).
      exists p. cbn. rewrite lookup_insert_ne by congruence. split; auto. apply share_same. cbn.
      rewrite A9. cbn. rewrite bool_decide_false; [lia|]. intros E. rewrite E in *. lia.
    - (* swap *) bstep H x E. destruct x as [out s1]. injection H as <-. destruct pair as [ai ao].
      destruct Hop as ([Hu1 Hu2] & ? & ?).
      apply swap_full in E; auto; try lia; [|eapply inv_nonneg; eauto].
      destruct E as (q & q' & Hq0 & Hq1 & Hkp & _ & _ & Hi & _ & _ & Hlp).
      destruct (decide (k = pair_key ai ao)) as [->|Hkne].
      + rewrite Hk in Hq0. injection Hq0 as <-. exists q'. rewrite Hq1, lookup_insert. split; auto.
        split; auto. rewrite Hi. nia.
      + exists p. rewrite Hq1, lookup_insert_ne by auto. split; auto. apply share_same; auto.
    - unfold update_protocol_fee in H. bstep H u E. injection H as <-. exists p. split; auto. apply share_same; auto.
    - unfold update_protocol_fee_receiver in H. bstep H u E. injection H as <-. exists p. split; auto. apply share_same; auto.
    - bstep H L E. injection H as <-. exists p. split; auto. apply share_same. cbn.
      apply transfer_spec in E. destruct E as (_ & E & _). auto.
    - bstep H L E. injection H as <-. exists p. split; auto. apply share_same. cbn.
      apply mint_spec in E. destruct E as (_ & _ & E). rewrite E. rewrite bool_decide_false; [lia|].
      intros Ea. destruct Hop as (_ & Hn). apply Hn. exists k, p. auto.
    - bstep H L E. injection H as <-. exists p. split; auto. apply share_same. cbn.
      apply burn_spec in E. destruct E as (_ & _ & _ & E). rewrite E. rewrite bool_decide_false; [lia|].
      intros Ea. destruct Hop as (_ & _ & Hn). apply Hn. exists k, p. auto.
  Qed.

  Lemma share_trans a b c A B D :
    0 <= a -> 0 <= c -> 0 < B -> a * (B * B) <= b * (A * A) -> b * (D * D) <= c * (B * B) -> a * (D * D) <= c * (A * A).
  Proof.
    intros Ha Hc HB H1 H2.
    apply (Z.mul_le_mono_pos_r _ _ (B * B)); [nia|].
    transitivity (b * (A * A) * (D * D)).
    - replace (a * (D * D) * (B * B)) with (a * (B * B) * (D * D)) by ring. apply Z.mul_le_mono_nonneg_r; nia.
    - replace (b * (A * A) * (D * D)) with (b * (D * D) * (A * A)) by ring.
      replace (c * (A * A) * (B * B)) with (c * (B * B) * (A * A)) by ring. apply Z.mul_le_mono_nonneg_r; nia.
  Qed.

  (** operations that do not touch the protocol-fee settings *)
  Definition not_fee_op (o : amm_op) : Prop := match o with OFee _ _ | OReceiver _ _ => False | _ => True end.

  Lemma step_fee_settings s o s' : not_fee_op o -> amm_step C P s o = Ok s' -> pfee s' = pfee s /\ preceiver s' = preceiver s.
  Proof.
    intros Hn H. destruct o; cbn in Hn, H; try tauto.
    - unfold add_liquidity in H. bstep H x E. destruct x as [[i ba] qa].
      destruct (if i then _ else _) as [? ?]. destruct (if i then _ else _) as [? ?].
      bstep H y E1. bstep H zz E2. destruct zz. bstep H u E3. bstep H u1 E4. bstep H t E5. destruct t as [[? ?] ?].
      bstep H v E6. destruct v. injection H as <-. auto.
    - unfold remove_liquidity in H. bstep H x E. destruct x as [[i ba] qa].
      bstep H y E1. bstep H t E5. destruct t as [[? ?] ?].
      bstep H v E6. destruct v as [[[? ?] ?] ?]. injection H as <-. auto.
    - unfold create_pool in H. bstep H u E0. bstep H x E. destruct x as [[i ba] qa].
      bstep H u1 E1. bstep H u2 E2. bstep H v E6. destruct v. injection H as <-. auto.
    - bstep H x E. destruct x. injection H as <-. destruct pair. apply do_swap_spec in E.
      destruct E as (p & p1 & p2 & L1 & L2 & _ & _ & -> & _). auto.
    - bstep H x E. injection H as <-. auto.
    - bstep H x E. injection H as <-. auto.
    - bstep H x E. injection H as <-. auto.
  Qed.

  Lemma history_share s os s' :
    cfg_ok C -> amm_inv C s -> protocol_fee_on s = false -> Forall not_fee_op os ->
    amm_history C P s os s' ->
    forall k p, pools s !! k = Some p -> exists p', pools s' !! k = Some p' /\ share_ok s s' k p p'.
  Proof.
    intros HC I Hoff Hn H. induction H as [s | s o os s' Hop H IH]; intros k p Hk.
    - exists p. split; auto. apply share_same; auto.
    - inversion Hn as [|? ? Hn1 Hn2]; subst. revert H IH. unfold amm_exec.
      destruct (amm_step C P s o) as [s1|e|] eqn:E; intros H IH; [|apply IH; auto|apply IH; auto].
      pose proof (step_inv C P s o s1 HC I Hop E) as I1.
      destruct (step_share s o s1 k p HC I Hop Hoff E Hk) as (p1 & Hk1 & Hlp1 & Hs1).
      destruct (step_fee_settings s o s1 Hn1 E) as [Ef1 Ef2].
      destruct (IH I1) with (k := k) (p := p1) as (p2 & Hk2 & Hlp2 & Hs2); auto.
      { unfold protocol_fee_on in *. rewrite Ef1, Ef2. auto. }
      exists p2. split; auto. split; [congruence|]. rewrite Hlp1 in Hs2.
      pose proof (inv_iss_pos s1 k p1 HC I1 Hk1). rewrite Hlp1 in *. destruct HC as (_ & ? & _).
      pose proof (kprod_nonneg s k p I Hk).
      assert (0 <= kprod p2).
      { pose proof (kprod_nonneg s1 k p1 I1 Hk1).
        destruct (decide (0 <= kprod p2)); auto. exfalso. nia. }
      eapply share_trans; [| | |exact Hs1|exact Hs2]; lia.
  Qed.

  (** ** C02: any sequence of swaps *)
  Definition is_swap_on (k : Z * Z) (o : amm_op) : Prop :=
    match o with OSwap _ _ pr _ => pair_key pr.1 pr.2 = k | _ => False end.

  Lemma swaps_k s os s' k p :
    cfg_ok C -> amm_inv C s -> Forall (is_swap_on k) os -> amm_history C P s os s' -> pools s !! k = Some p ->
    exists p', pools s' !! k = Some p' /\ 0 < p_base p' /\ 0 < p_quote p' /\ kprod p <= kprod p'.
  Proof.
    intros HC I Hf H. revert p. induction H as [s | s o os s' Hop H IH]; intros p Hk.
    - exists p. destruct (inv_pos C s I k p Hk). repeat split; auto; lia.
    - inversion Hf as [|? ? Hf1 Hf2]; subst. revert H IH. unfold amm_exec.
      destruct (amm_step C P s o) as [s1|e|] eqn:E; intros H IH; [|apply IH; auto|apply IH; auto].
      pose proof (step_inv C P s o s1 HC I Hop E) as I1.
      destruct o; try contradiction. cbn in *. bstep E x E0. destruct x as [out s2]. injection E as <-.
      destruct pair as [ai ao]. cbn in Hf1. subst k. destruct Hop as ([Hu1 Hu2] & [? ?] & ?).
      apply swap_full in E0; auto; [|eapply inv_nonneg; eauto].
      destruct E0 as (q & q' & Hq0 & Hq1 & Hkp & _ & _ & Hi & _ & _ & Hlp).
      rewrite Hk in Hq0. injection Hq0 as <-.
      destruct (IH I1 Hf2 q') as (p2 & ? & ? & ? & ?). { rewrite Hq1. apply lookup_insert. }
      exists p2. repeat split; auto; lia.
  Qed.

  Lemma swaps_no_free_lunch s os s' k p :
    cfg_ok C -> amm_inv C s -> Forall (is_swap_on k) os -> amm_history C P s os s' -> pools s !! k = Some p ->
    exists p', pools s' !! k = Some p' /\
      (p_base p' <= p_base p -> p_quote p <= p_quote p') /\ (p_quote p' <= p_quote p -> p_base p <= p_base p').
  Proof.
    intros HC I Hf H Hk. destruct (swaps_k _ _ _ _ _ HC I Hf H Hk) as (p' & ? & ? & ? & HK).
    destruct (inv_pos C s I k p Hk). exists p'. split; auto. unfold kprod in HK. split; intros; nia.
  Qed.

  (** ** C09 *)
  Lemma amount_in_core aout ri ro ain :
    cfg_ok C -> 0 <= aout -> 0 <= ri ->
    get_amount_in C aout ri ro = Ok ain ->
    aout < ro /\ lp_fee C < PMILL /\ 0 <= ri * aout / (ro - aout) /\
    ri * aout / (ro - aout) * PMILL + (PMILL - lp_fee C) <= ain * (PMILL - lp_fee C) /\ 0 < ain.
  Proof.
    intros (Hf & _ & _) Ho Hri H. unfold get_amount_in in H. bstep H u E0. bstep H q Eq. destruct Eq as [-> Hd].
    bstep H a Ea. apply chk_some in Ea. destruct Ea as [-> Ea]. bstep H g Eg. unfold p_checked_sub in Eg.
    destruct (lp_fee C <=? PMILL) eqn:E1; [|discriminate]. injection Eg as <-.
    unfold p_recip_mul_ceil in H. destruct (PMILL - lp_fee C =? 0) eqn:Eg; [discriminate|]. cbn [rbind] in H.
    ok_simpl H. ok_arith H. destruct H as [-> H].
    set (a := ri * aout / (ro - aout)) in *. set (g := PMILL - lp_fee C) in *.
    assert (0 < g) by lia. pose proof (cdiv_ge (a * PMILL) g ltac:(lia)).
    pose proof PMILL_pos.
    assert (0 <= cdiv (a * PMILL) g). { unfold cdiv. apply Z.div_pos; nia. }
    unfold sat128 in *. replace (Z.max 0 (Z.min (cdiv (a * PMILL) g) U128MAX)) with (cdiv (a * PMILL) g) in * by lia.
    repeat split; try lia.
  Qed.

  Lemma amount_out_ge n aout ri ro :
    0 <= aout -> 0 <= ri -> 0 < ri + n -> n * (ro - aout) >= ri * aout -> aout <= n * ro / (ri + n).
  Proof. intros. apply Z.div_le_lower_bound; nia. Qed.

  Lemma exact_out_divisible aout ri ro ain out :
    cfg_ok C -> 0 <= aout -> 0 <= ri -> (ro - aout | ri * aout) ->
    get_amount_in C aout ri ro = Ok ain -> get_amount_out C ain ri ro = Ok out -> aout <= out.
  Proof.
    intros HC Ho Hri [c Hc] H1 H2. destruct (amount_in_core _ _ _ _ HC Ho Hri H1) as (A1 & A2 & A3 & A4 & A5).
    apply get_amount_out_spec in H2. destruct H2 as (B1 & -> & B2).
    assert (Ha : ri * aout / (ro - aout) = c) by (rewrite Hc, Z.div_mul; lia). rewrite Ha in *.
    assert (c <= net_in C ain). { rewrite net_in_floor. apply Z.div_le_lower_bound; [apply PMILL_pos|]. lia. }
    apply amount_out_ge; auto; nia.
  Qed.

  Lemma exact_out_plus_one aout ri ro ain out :
    cfg_ok C -> 2 * lp_fee C <= PMILL -> 0 <= aout -> 0 <= ri ->
    get_amount_in C aout ri ro = Ok ain -> get_amount_out C (ain + 1) ri ro = Ok out -> aout <= out.
  Proof.
    intros HC Hhalf Ho Hri H1 H2. destruct (amount_in_core _ _ _ _ HC Ho Hri H1) as (A1 & A2 & A3 & A4 & A5).
    apply get_amount_out_spec in H2. destruct H2 as (B1 & -> & B2).
    pose proof (div_gt_mul (ri * aout) (ro - aout) ltac:(lia)) as D.
    set (a := ri * aout / (ro - aout)) in *.
    assert (a + 1 <= net_in C (ain + 1)). { rewrite net_in_floor. apply Z.div_le_lower_bound; [apply PMILL_pos|]. nia. }
    apply amount_out_ge; auto; nia.
  Qed.

  (** ** C10 *)
  Lemma swap_oracle_monotone now s who ai ao amt out s' :
    cfg_ok C -> do_swap C P now s who (ai, ao) amt = Ok (out, s') ->
    exists p p', pools s !! pair_key ai ao = Some p /\ pools s' !! pair_key ai ao = Some p' /\
      p_price0 p <= p_price0 p' /\ p_price1 p <= p_price1 p' /\ p_ts p' = now /\
      (p_ts p = now -> p_price0 p' = p_price0 p /\ p_price1 p' = p_price1 p) /\
      (p_ts p <> now ->
        p_price0 p' = p_price0 p + sat128 (Z.max 0 (now - p_ts p) * p_quote p' * FDIV / p_base p') /\
        p_price1 p' = p_price1 p + sat128 (Z.max 0 (now - p_ts p) * p_base p' * FDIV / p_quote p')).
  Proof.
    intros HC H. apply do_swap_spec in H.
    destruct H as (p & p1 & p2 & L1 & L2 & Hne & Hp & -> & Hro & Hout & Hp1 & Hor & Hres & _).
    exists p, p2. split; auto. split; [cbn; apply lookup_insert|].
    apply do_update_oracle_spec in Hor. destruct Hor as (S1 & S2 & S3).
    assert (F : p_ts p1 = p_ts p /\ p_price0 p1 = p_price0 p /\ p_price1 p1 = p_price1 p).
    { rewrite Hp1. destruct (ai <? ao); auto. }
    destruct F as (F1 & F2 & F3). rewrite F1, F2, F3 in *.
    destruct (decide (p_ts p = now)) as [E|E].
    - rewrite (S2 E) in *. rewrite F2, F3, F1. repeat split; auto; try lia; tauto.
    - destruct (S3 E) as (T1 & T2 & T3 & T4 & T5).
      assert (Eb : p_base p2 = p_base p1) by (rewrite S1; auto).
      assert (Eq : p_quote p2 = p_quote p1) by (rewrite S1; auto).
      rewrite Eb, Eq.
      pose proof (sat128_range (Z.max 0 (now - p_ts p) * p_quote p1 * FDIV / p_base p1)).
      pose proof (sat128_range (Z.max 0 (now - p_ts p) * p_base p1 * FDIV / p_quote p1)).
      repeat split; auto; try lia.
  Qed.

  (** ** C11: fee mint *)
  Lemma fee_bound s p f p' L' :
    0 <= p_base p -> 0 <= p_quote p -> 0 <= p_base_last p * p_quote_last p -> 0 <= iss (led s) (p_lp p) ->
    do_mint_protocol_fee P s p = Ok (f, p', L') ->
    (protocol_fee_on s = false -> f = 0) /\ 0 <= f /\
    iss L' (p_lp p) = iss (led s) (p_lp p) + f /\
    (Z.sqrt (p_base_last p * p_quote_last p) <= Z.sqrt (kprod p) ->
     Z.sqrt (p_base_last p * p_quote_last p) * (iss (led s) (p_lp p) + f) <= Z.sqrt (kprod p) * iss (led s) (p_lp p)) /\
    (Z.sqrt (kprod p) <= Z.sqrt (p_base_last p * p_quote_last p) -> f = 0).
  Proof.
    intros Hb Hq Hl HT H. pose proof (mint_fee_spec _ _ _ _ _ _ H) as (recv & F0 & F1 & F2 & F3 & _ & _ & _ & F4 & F5 & F6 & F7).
    split; [apply F7|]. split; [auto|]. split; [rewrite F5, bool_decide_true; auto|].
    unfold do_mint_protocol_fee in H. fold (kprod p) in H.
    pose proof (Z.sqrt_nonneg (p_base_last p * p_quote_last p)). pose proof (Z.sqrt_nonneg (kprod p)).
    set (rl := Z.sqrt (p_base_last p * p_quote_last p)) in *. set (rk := Z.sqrt (kprod p)) in *.
    destruct (negb (protocol_fee_on s)) eqn:Eon.
    { injection H as <- _ _. split; [|auto]. intros. nia. }
    destruct (rk <=? rl) eqn:Ek.
    { injection H as <- _ _. split; [|auto]. intros. nia. }
    bstep H rc Erc. bstep H sc0 Esc. bstep H q Eq0. bstep H f' Ef. bstep H r Er. bstep H L Em.
    injection H as <- _ _. apply chk_some in Ef. destruct Ef as [-> Ef]. destruct Eq0 as [-> Hd].
    destruct Esc as [-> Esc]. split; [|lia]. intros _.
    set (T := iss (led s) (p_lp p)) in *. set (sc := rc - 1) in *.
    assert (0 < rk * sc + rl) by nia.
    pose proof (div_le_mul ((rk - rl) * T) (rk * sc + rl) ltac:(lia)).
    set (ff := (rk - rl) * T / (rk * sc + rl)) in *. nia.
  Qed.
End p2.
