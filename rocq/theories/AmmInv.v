From Verif Require Import Base MapSum Ledger AmmModel AmmSpec AmmProofs.

Section inv.
  Context (C : amm_cfg) (P : policy).

  Lemma mint_fee_spec s p f p' L' :
    do_mint_protocol_fee P s p = Ok (f, p', L') ->
    exists recv,
      0 <= f /\ p_base p' = p_base p /\ p_quote p' = p_quote p /\ p_lp p' = p_lp p /\ p_ts p' = p_ts p /\
      p_price0 p' = p_price0 p /\ p_price1 p' = p_price1 p /\
      (forall a w, bal L' a w = bal (led s) a w + at_ (p_lp p) recv a w f) /\
      (forall a, iss L' a = iss (led s) a + (if bool_decide (a = p_lp p) then f else 0)) /\
      (ledger_wf (led s) -> ledger_wf L') /\
      (protocol_fee_on s = false -> f = 0 /\ L' = led s).
  Proof.
    unfold do_mint_protocol_fee. destruct (protocol_fee_on s) eqn:Eon; cbn [negb].
    2:{ intros [= <- <- <-]. exists 0. repeat (split; [first [lia | destruct (negb _); reflexivity]|]).
        split; [intros; unfold at_; case_bool_decide; lia|].
        split; [intros; case_bool_decide; lia|]. auto. }
    destruct (_ <=? _) eqn:Ek.
    { intros [= <- <- <-]. exists 0. repeat (split; [first [lia | reflexivity]|]).
      split; [intros; unfold at_; case_bool_decide; lia|].
      split; [intros; case_bool_decide; lia|]. split; [auto|discriminate]. }
    intros H. bstep H rc Erc. bstep H sc Esc. bstep H q Eq. bstep H f' Ef. bstep H r Er. bstep H L Em.
    injection H as <- <- <-. exists r. pose proof (mint_spec _ _ _ _ _ _ Em) as (S0 & S1 & S2).
    repeat (split; [first [lia | reflexivity]|]). split; [auto|]. split; [auto|].
    split; [intros W; eapply mint_wf; eauto|discriminate].
  Qed.

  Lemma add_liq_spec s who p ib iq ba qa p' L' :
    0 <= ib -> 0 <= iq ->
    do_add_liquidity C P s who p (ib, iq) (ba, qa) = Ok (p', L') ->
    exists liq locked,
      0 <= liq /\ 0 <= locked /\
      p_base p' = p_base p + ib /\ p_quote p' = p_quote p + iq /\ p_lp p' = p_lp p /\
      p_ts p' = p_ts p /\ p_price0 p' = p_price0 p /\ p_price1 p' = p_price1 p /\
      0 <= p_base p' <= U128MAX /\ 0 <= p_quote p' <= U128MAX /\
      (iss (led s) (p_lp p) = 0 /\ locked = min_liq C /\ liq = Z.sqrt (ib * iq) - min_liq C \/
       iss (led s) (p_lp p) <> 0 /\ locked = 0 /\ p_base p <> 0 /\ p_quote p <> 0 /\
         liq = Z.min (ib * iss (led s) (p_lp p) / p_base p) (iq * iss (led s) (p_lp p) / p_quote p)) /\
      (forall a w, bal L' a w = bal (led s) a w + at_ (p_lp p) (lock_acct C) a w locked
          + at_ (p_lp p) who a w liq - at_ ba who a w ib + at_ ba (amm_acct C) a w ib
          - at_ qa who a w iq + at_ qa (amm_acct C) a w iq) /\
      (forall a, iss L' a = iss (led s) a + (if bool_decide (a = p_lp p) then locked + liq else 0)) /\
      (ledger_wf (led s) -> ledger_wf L') /\
      p_base_last p' = (if protocol_fee_on s then p_base p' else p_base_last p) /\
      p_quote_last p' = (if protocol_fee_on s then p_quote p' else p_quote_last p).
  Proof.
    intros Hib Hiq H. unfold do_add_liquidity in H. bstep H x El. destruct x as [liq L1].
    bstep H nb Enb. bstep H nq Enq. bstep H L2 E2. bstep H L3 E3. bstep H L4 E4. injection H as <- <-.
    destruct Enb as [-> Enb], Enq as [-> Enq].
    pose proof (mint_spec _ _ _ _ _ _ E2) as (S0 & S1 & S2).
    pose proof (transfer_spec _ _ _ _ _ _ _ _ E3) as (T1 & T2 & _).
    pose proof (transfer_spec _ _ _ _ _ _ _ _ E4) as (U1 & U2 & _).
    exists liq, (if iss (led s) (p_lp p) =? 0 then min_liq C else 0).
    set (pp := if protocol_fee_on s then _ else _).
    assert (Hpp : p_base pp = p_base p + ib /\ p_quote pp = p_quote p + iq /\ p_lp pp = p_lp p /\
      p_ts pp = p_ts p /\ p_price0 pp = p_price0 p /\ p_price1 pp = p_price1 p /\
      p_base_last pp = (if protocol_fee_on s then p_base pp else p_base_last p) /\
      p_quote_last pp = (if protocol_fee_on s then p_quote pp else p_quote_last p)).
    { subst pp. destruct (protocol_fee_on s); repeat split. }
    clearbody pp. destruct Hpp as (F1 & F2 & F3 & F4 & F5 & F6 & F7 & F8).
    assert (Hlocked : 0 <= (if iss (led s) (p_lp p) =? 0 then min_liq C else 0) /\
       (iss (led s) (p_lp p) = 0 /\ (if iss (led s) (p_lp p) =? 0 then min_liq C else 0) = min_liq C /\ liq = Z.sqrt (ib * iq) - min_liq C \/
       iss (led s) (p_lp p) <> 0 /\ (if iss (led s) (p_lp p) =? 0 then min_liq C else 0) = 0 /\ p_base p <> 0 /\ p_quote p <> 0 /\
         liq = Z.min (ib * iss (led s) (p_lp p) / p_base p) (iq * iss (led s) (p_lp p) / p_quote p)) /\
       (forall a w, bal L1 a w = bal (led s) a w + at_ (p_lp p) (lock_acct C) a w (if iss (led s) (p_lp p) =? 0 then min_liq C else 0)) /\
       (forall a, iss L1 a = iss (led s) a + (if bool_decide (a = p_lp p) then (if iss (led s) (p_lp p) =? 0 then min_liq C else 0) else 0)) /\
       (ledger_wf (led s) -> ledger_wf L1)).
    { destruct (iss (led s) (p_lp p) =? 0) eqn:Ei.
      - bstep El L1' Em. destruct (0 <=? Z.sqrt (ib * iq) - min_liq C) eqn:Er; [|discriminate El].
        cbn [rbind] in El. bstep El l Ec. injection El as <- <-. apply chk_some in Ec. destruct Ec as [-> Ec].
        pose proof (mint_spec _ _ _ _ _ _ Em) as (M0 & M1 & M2).
        split; [lia|]. split; [left; repeat split; lia|]. split; [auto|]. split; [auto|].
        intros W; eapply mint_wf; eauto.
      - bstep El l0 E0. bstep El l0' E0'. bstep El l1 E1. bstep El l1' E1'. injection El as <- <-.
        apply chk_some in E0', E1'. destruct E0 as [-> E0], E1 as [-> E1], E0' as [-> _], E1' as [-> _].
        split; [lia|]. split; [right; repeat split; auto; lia|].
        split; [intros; unfold at_; case_bool_decide; lia|].
        split; [intros; case_bool_decide; lia|]. auto. }
    destruct Hlocked as (K0 & K1 & K2 & K3 & K4).
    split; [lia|]. split; [lia|].
    repeat (split; [first [assumption | lia]|]).
    split.
    { intros a w. rewrite U1, T1, S1, K2. lia. }
    split.
    { intros a. rewrite U2, T2, S2, K3. case_bool_decide; lia. }
    split; [|auto].
    intros W. eapply transfer_wf; [|eapply transfer_wf; [|eapply mint_wf; [|exact E2]|exact E3]|exact E4]; auto.
  Qed.

  Lemma remove_liq_spec s L who p l ba qa b q p' L' :
    do_remove_liquidity C P s L who p l (ba, qa) = Ok (b, q, p', L') ->
    let T := iss L (p_lp p) in
      T <> 0 /\ 0 <= l /\ (0 < l -> l <= bal L (p_lp p) who) /\
      b = l * p_base p / T /\ q = l * p_quote p / T /\ 0 <= b <= p_base p /\ 0 <= q <= p_quote p /\
      p_base p' = p_base p - b /\ p_quote p' = p_quote p - q /\ p_lp p' = p_lp p /\
      p_ts p' = p_ts p /\ p_price0 p' = p_price0 p /\ p_price1 p' = p_price1 p /\
      (forall a w, bal L' a w = bal L a w - at_ (p_lp p) who a w l
          - at_ ba (amm_acct C) a w b + at_ ba who a w b
          - at_ qa (amm_acct C) a w q + at_ qa who a w q) /\
      (forall a, iss L' a = iss L a - (if bool_decide (a = p_lp p) then l else 0)) /\
      (ledger_wf L -> ledger_wf L') /\
      p_base_last p' = (if protocol_fee_on s then p_base p' else p_base_last p) /\
      p_quote_last p' = (if protocol_fee_on s then p_quote p' else p_quote_last p).
  Proof.
    intros H. unfold do_remove_liquidity, calculate_reserves_to_remove in H.
    bstep H x Ec. destruct x as [b0 q0].
    bstep Ec b1 E0. bstep Ec b2 E0'. bstep Ec q1 E1. bstep Ec q2 E1'. injection Ec as -> ->.
    apply chk_some in E0', E1'. destruct E0 as [-> E0], E1 as [-> E1], E0' as [-> E0'], E1' as [-> E1'].
    bstep H nb Enb. bstep H nq Enq. bstep H L1 B. bstep H L2 E2. bstep H L3 E3. injection H as <- <- <- <-.
    destruct Enb as [-> Enb], Enq as [-> Enq].
    pose proof (burn_spec _ _ _ _ _ _ B) as (S0 & S3 & S1 & S2).
    pose proof (transfer_spec _ _ _ _ _ _ _ _ E2) as (T1 & T2 & _).
    pose proof (transfer_spec _ _ _ _ _ _ _ _ E3) as (U1 & U2 & _).
    cbn zeta.
    split; [auto|]. split; [lia|]. split; [auto|].
    split; [auto|]. split; [auto|]. split; [lia|]. split; [lia|].
    destruct (protocol_fee_on s); cbn;
    (repeat (split; [first [assumption | lia]|]);
     split; [intros a w; rewrite U1, T1, S1; lia|];
     split; [intros a; rewrite U2, T2, S2; lia|]; split; [|auto];
     intros W; eapply transfer_wf; [|eapply transfer_wf; [|eapply burn_wf; [|exact B]|exact E2]|exact E3]; auto; lia).
  Qed.

  (** ** The invariant *)
  Record amm_inv (s : amm) : Prop := {
    inv_wf : ledger_wf (led s);
    inv_key : forall k p, pools s !! k = Some p -> k.2 < k.1;
    inv_pos : forall k p, pools s !! k = Some p -> 0 < p_base p <= U128MAX /\ 0 < p_quote p <= U128MAX;
    inv_lock : forall k p, pools s !! k = Some p -> min_liq C <= bal (led s) (p_lp p) (lock_acct C);
    inv_uniq : forall k1 p1 k2 p2, pools s !! k1 = Some p1 -> pools s !! k2 = Some p2 -> p_lp p1 = p_lp p2 -> k1 = k2;
    inv_solv : amm_solvent C s
  }.

  Lemma total_reserves_set s k p p' L a :
    pools s !! k = Some p ->
    total_reserves (set_pool s k p' L) a = total_reserves s a + reserve k p' a - reserve k p a.
  Proof. intros Hk. unfold total_reserves, set_pool; cbn. rewrite msum_insert, Hk. lia. Qed.
  Lemma total_reserves_new s k p' L a :
    pools s !! k = None ->
    total_reserves (set_pool s k p' L) a = total_reserves s a + reserve k p' a.
  Proof. intros Hk. unfold total_reserves, set_pool; cbn. rewrite msum_insert, Hk. lia. Qed.

  Lemma inv_nonneg s : amm_inv s -> reserves_nonneg s.
  Proof. intros I k p Hk. destruct (inv_pos s I k p Hk). lia. Qed.

  (** preservation when one existing pool is replaced *)
  Lemma inv_update s k p p' L' :
    amm_inv s -> pools s !! k = Some p ->
    p_lp p' = p_lp p -> 0 < p_base p' <= U128MAX -> 0 < p_quote p' <= U128MAX ->
    ledger_wf L' ->
    (forall a, is_lp s a -> min_liq C <= bal L' a (lock_acct C)) ->
    (forall a, reserve k p' a - reserve k p a <= bal L' a (amm_acct C) - bal (led s) a (amm_acct C)) ->
    amm_inv (set_pool s k p' L').
  Proof.
    intros I Hk Hlp Hb Hq W Hlock Hs.
    assert (G : forall k1 p1, (pools (set_pool s k p' L')) !! k1 = Some p1 ->
                exists p0, pools s !! k1 = Some p0 /\ p_lp p1 = p_lp p0).
    { intros k1 p1. cbn. destruct (decide (k1 = k)) as [->|Hne].
      - rewrite lookup_insert. intros [= <-]. eauto.
      - rewrite lookup_insert_ne by auto. eauto. }
    split; cbn.
    - auto.
    - intros k1 p1 H1. destruct (G k1 p1 H1) as (p0 & H0 & _). eapply inv_key; eauto.
    - intros k1 p1. destruct (decide (k1 = k)) as [->|Hne].
      + rewrite lookup_insert. intros [= <-]. auto.
      + rewrite lookup_insert_ne by auto. apply inv_pos; auto.
    - intros k1 p1 H1. destruct (G k1 p1 H1) as (p0 & H0 & ->). apply Hlock. exists k1, p0; auto.
    - intros k1 p1 k2 p2 H1 H2 E. destruct (G k1 p1 H1) as (q1 & Q1 & E1). destruct (G k2 p2 H2) as (q2 & Q2 & E2).
      eapply inv_uniq; eauto. congruence.
    - intros a. rewrite (total_reserves_set s k p p' L' a Hk). cbn. pose proof (inv_solv s I a). specialize (Hs a). lia.
  Qed.


  Lemma swap_inv now s who pr amt out s' :
    cfg_ok C -> amm_inv s -> user C who -> u128_ok amt ->
    do_swap C P now s who pr amt = Ok (out, s') -> amm_inv s'.
  Proof.
    intros HC I [Hu1 Hu2] Ha H. destruct pr as [ai ao]. pose proof H as H0. apply do_swap_spec in H0.
    destruct H0 as (p & p1 & p2 & L1 & L2 & Hne & Hp & -> & Hro & Hout & Hp1 & Hor & Hres & HL1 & HL2 & Hlp & Hge & Hf & Hmin & Hov).
    destruct (inv_pos s I _ _ Hp) as [Hb Hq].
    assert (N1 : 0 < reserve (pair_key ai ao) p ai) by (unfold reserve, pair_key; cbn; repeat case_bool_decide; lia).
    assert (N2 : 0 < reserve (pair_key ai ao) p ao) by (unfold reserve, pair_key; cbn; repeat case_bool_decide; lia).
    assert (M2 : reserve (pair_key ai ao) p ao <= U128MAX) by (unfold reserve, pair_key; cbn; repeat case_bool_decide; lia).
    unfold u128_ok in Ha.
    pose proof (get_amount_out_lt C _ _ _ _ HC ltac:(apply Ha) N1 N2 Hout) as Hlt.
    pose proof (get_amount_out_bounds C _ _ _ _ HC ltac:(apply Ha) ltac:(apply Z.lt_le_incl, N1) ltac:(apply Z.lt_le_incl, N2) Hout) as (G1 & _).
    pose proof (transfer_wf _ _ _ _ _ _ _ _ ltac:(apply Ha) (inv_wf s I) HL1) as W1.
    pose proof (transfer_wf _ _ _ _ _ _ _ _ ltac:(apply G1) W1 HL2) as W2.
    apply transfer_spec in HL1, HL2. destruct HL1 as (B1 & I1 & _), HL2 as (B2 & I2 & _).
    assert (R : 0 < p_base p2 <= U128MAX /\ 0 < p_quote p2 <= U128MAX).
    { apply do_update_oracle_spec in Hor. destruct Hor as (-> & _). cbn. rewrite Hp1.
      destruct (ai <? ao); cbn; lia. }
    apply inv_update with p; auto; try apply R.
    - intros a (k & q & Hk & <-). rewrite B2, B1.
      pose proof (inv_lock s I k q Hk). unfold at_. destruct HC as (_&_&?).
      repeat case_bool_decide; destruct_and?; subst; try congruence; lia.
    - intros a. rewrite B2, B1, Hres. unfold at_.
      repeat case_bool_decide; destruct_and?; subst; try congruence; try tauto; lia.
  Qed.

  Lemma at_other a w a' w' x : w' <> w -> at_ a w a' w' x = 0.
  Proof. intros. unfold at_. case_bool_decide; tauto. Qed.
  Lemma at_nonneg a w a' w' x : 0 <= x -> 0 <= at_ a w a' w' x.
  Proof. intros. unfold at_. case_bool_decide; lia. Qed.
  Lemma at_same a w a' x : at_ a w a' w x = if bool_decide (a' = a) then x else 0.
  Proof. unfold at_. repeat case_bool_decide; tauto. Qed.

  Lemma ideal_spec p b q ib iq :
    0 <= b -> 0 <= q -> 0 <= p_base p -> 0 <= p_quote p ->
    get_ideal_amounts p (b, q) = Ok (ib, iq) -> 0 <= ib /\ 0 <= iq.
  Proof.
    intros Hb Hq Hpb Hpq H. unfold get_ideal_amounts in H. destruct (pool_is_empty p).
    { injection H as <- <-. auto. }
    unfold quote in H. bstep H x Ex. destruct (p_base p =? 0) eqn:E0; [discriminate Ex|].
    apply chk_some in Ex. destruct Ex as [-> Ex].
    destruct (_ <=? _).
    - injection H as <- <-. lia.
    - bstep H y Ey. destruct (p_quote p =? 0) eqn:E1; [discriminate Ey|].
      apply chk_some in Ey. destruct Ey as [-> Ey]. injection H as <- <-. lia.
  Qed.

  (** full description of a successful [add_liquidity] *)
  Lemma add_liquidity_spec s who a b desired minimum s' :
    reserves_nonneg s -> 0 <= desired.1 -> 0 <= desired.2 ->
    add_liquidity C P s who (a, b) desired minimum = Ok s' ->
    exists p p1 L1 p2 L2 ib iq f,
      let k := pair_key a b in
      let da := if a <? b then (desired.2, desired.1) else desired in
      let mi := if a <? b then (minimum.2, minimum.1) else minimum in
      a <> b /\ pools s !! k = Some p /\ get_ideal_amounts p da = Ok (ib, iq) /\
      0 <= ib <= da.1 /\ 0 <= iq <= da.2 /\ mi.1 <= ib /\ mi.2 <= iq /\
      do_mint_protocol_fee P s p = Ok (f, p1, L1) /\
      do_add_liquidity C P (set_led s L1) who p1 (ib, iq) k = Ok (p2, L2) /\
      s' = set_pool s k p2 L2.
  Proof.
    intros Hnn Hd1 Hd2 H. unfold add_liquidity in H. bstep H x E. destruct x as [[inv ba] qa].
    apply sort_assets_spec in E. destruct E as (Hne & Hk & ->).
    remember (if a <? b then (desired.2, desired.1) else desired) as da eqn:Eda.
    remember (if a <? b then (minimum.2, minimum.1) else minimum) as mi eqn:Emi.
    assert (Hda : 0 <= da.1 /\ 0 <= da.2) by (subst da; destruct (a <? b); cbn; lia).
    clear Eda Emi. destruct da as [d1 d2]. destruct mi as [m1 m2].
    bstep H p Ep. bstep H y Ey. destruct y as [ib iq]. bstep H u1 E1. bstep H u2 E2.
    bstep H z Ez. destruct z as [[f p1] L1]. bstep H w Ew. destruct w as [p2 L2]. injection H as <-.
    rewrite Hk in *. destruct (Hnn _ _ Ep) as [Hb Hq].
    destruct (ideal_spec p d1 d2 ib iq) as [? ?]; cbn in *; try tauto.
    apply andb_prop in E1, E2.
    exists p, p1, L1, p2, L2, ib, iq, f. cbv zeta. cbn [fst snd].
    repeat split; auto; lia.
  Qed.

  Lemma add_inv s who pr d m s' :
    cfg_ok C -> amm_inv s -> user C who -> u128_ok d.1 -> u128_ok d.2 ->
    add_liquidity C P s who pr d m = Ok s' -> amm_inv s'.
  Proof.
    intros HC I [Hu1 Hu2] Hd1 Hd2 H. destruct pr as [a b]. unfold u128_ok in *.
    apply add_liquidity_spec in H; try lia; [|apply inv_nonneg; auto].
    destruct H as (p & p1 & L1 & p2 & L2 & ib & iq & f & Hne & Hp & Hid & Hib & Hiq & _ & _ & Hf & Hadd & ->).
    destruct (mint_fee_spec _ _ _ _ _ Hf) as (recv & F0 & F1 & F2 & F3 & _ & _ & _ & F4 & F5 & F6 & _).
    unfold pair_key in Hadd.
    destruct (add_liq_spec _ _ _ _ _ _ _ _ _ (proj1 Hib) (proj1 Hiq) Hadd) as
      (liq & locked & A0 & A1 & A2 & A3 & A4 & _ & _ & _ & A5 & A6 & A7 & A8 & A9 & A10 & _).
    destruct (inv_pos s I _ _ Hp) as [Hb Hq]. cbn [led set_led] in *.
    apply inv_update with p; auto; try congruence; try lia.
    - apply A10, F6, inv_wf, I.
    - intros x (k & q & Hk & <-). rewrite A8, F4.
      pose proof (inv_lock s I k q Hk). destruct HC as (_&_&HC).
      pose proof (at_nonneg (p_lp p1) (lock_acct C) (p_lp q) (lock_acct C) locked A1).
      pose proof (at_nonneg (p_lp p) recv (p_lp q) (lock_acct C) f F0).
      rewrite !(at_other _ who) by auto. rewrite !(at_other _ (amm_acct C)) by auto. lia.
    - intros x. rewrite A8, F4. unfold reserve, pair_key; cbn.
      pose proof (at_nonneg (p_lp p1) (lock_acct C) x (amm_acct C) locked A1).
      pose proof (at_nonneg (p_lp p) recv x (amm_acct C) f F0).
      rewrite !(at_other _ who) by auto. rewrite !at_same. 
      repeat case_bool_decide; try lia.
  Qed.

  Lemma remove_liquidity_spec s who a b l s' :
    remove_liquidity C P s who (a, b) l = Ok s' ->
    exists p p1 L1 p2 L2 f x y,
      let k := pair_key a b in
      a <> b /\ pools s !! k = Some p /\
      do_mint_protocol_fee P s p = Ok (f, p1, L1) /\
      do_remove_liquidity C P s L1 who p1 l k = Ok (x, y, p2, L2) /\
      s' = set_pool s k p2 L2.
  Proof.
    intros H. unfold remove_liquidity in H. bstep H x E. destruct x as [[inv ba] qa].
    apply sort_assets_spec in E. destruct E as (Hne & Hk & ->). rewrite Hk in *.
    bstep H p Ep. bstep H z Ez. destruct z as [[f p1] L1].
    bstep H w Ew. destruct w as [[[x y] p2] L2]. injection H as <-.
    exists p, p1, L1, p2, L2, f, x, y. cbn. repeat split; auto.
  Qed.

  Lemma lt_total L lp who l :
    cfg_ok C -> ledger_wf L -> who <> lock_acct C -> min_liq C <= bal L lp (lock_acct C) ->
    0 <= l -> (0 < l -> l <= bal L lp who) -> l < iss L lp.
  Proof.
    intros (_ & Hm & _) W Hu Hl H0 H1. pose proof (bal2_le_iss L lp who (lock_acct C) W Hu).
    destruct W as [Wb _]. pose proof (Wb lp who). destruct (decide (0 < l)); lia.
  Qed.

  Lemma remove_inv s who pr l s' :
    cfg_ok C -> amm_inv s -> user C who -> u128_ok l ->
    remove_liquidity C P s who pr l = Ok s' -> amm_inv s'.
  Proof.
    intros HC I [Hu1 Hu2] Hl H. destruct pr as [a b]. unfold u128_ok in *.
    apply remove_liquidity_spec in H.
    destruct H as (p & p1 & L1 & p2 & L2 & f & rb & rq & Hne & Hp & Hf & Hrem & ->).
    destruct (mint_fee_spec _ _ _ _ _ Hf) as (recv & F0 & F1 & F2 & F3 & _ & _ & _ & F4 & F5 & F6 & _).
    unfold pair_key in Hrem.
    apply remove_liq_spec in Hrem. cbn zeta in Hrem.
    destruct Hrem as (A0 & A1 & A2 & A3 & A4 & A5 & A6 & A7 & A8 & A9 & _ & _ & _ & A10 & A11 & A12 & _).
    destruct (inv_pos s I _ _ Hp) as [Hb Hq].
    assert (W1 : ledger_wf L1) by (apply F6, inv_wf, I).
    assert (HL : l < iss L1 (p_lp p1)).
    { apply lt_total with who; auto. rewrite F3, F4. pose proof (inv_lock s I _ _ Hp).
      pose proof (at_nonneg (p_lp p) recv (p_lp p) (lock_acct C) f F0). lia. }
    assert (rb < p_base p1). { rewrite A3. apply Z.div_lt_upper_bound; nia. }
    assert (rq < p_quote p1). { rewrite A4. apply Z.div_lt_upper_bound; nia. }
    apply inv_update with p; auto; try congruence; try lia.
    - intros x (k & q & Hk & <-). rewrite A10, F4.
      pose proof (inv_lock s I k q Hk). destruct HC as (_&_&HC).
      pose proof (at_nonneg (p_lp p) recv (p_lp q) (lock_acct C) f F0).
      rewrite !(at_other _ who) by auto. rewrite !(at_other _ (amm_acct C)) by auto. lia.
    - intros x. rewrite A10, F4. unfold reserve, pair_key; cbn.
      pose proof (at_nonneg (p_lp p) recv x (amm_acct C) f F0).
      rewrite !(at_other _ who) by auto. rewrite !at_same. 
      repeat case_bool_decide; try lia.
  Qed.

  Lemma create_pool_spec s o a b amounts r lp s' :
    create_pool C P s o (a, b) amounts r lp = Ok s' ->
    exists p L,
      let k := pair_key a b in
      let am := if a <? b then (amounts.2, amounts.1) else amounts in
      create_origin C o = true /\ a <> b /\ pools s !! k = None /\ iss (led s) lp = 0 /\
      do_add_liquidity C P s r (new_pool lp) am k = Ok (p, L) /\ s' = set_pool s k p L.
  Proof.
    intros H. unfold create_pool in H. bstep H u E0. bstep H x E. destruct x as [[inv ba] qa].
    apply sort_assets_spec in E. destruct E as (Hne & Hk & ->). rewrite Hk in *.
    bstep H u1 E1. apply bool_decide_eq_true in E1. bstep H u2 E2.
    bstep H w Ew. destruct w as [p L]. injection H as <-.
    exists p, L. cbn. repeat split; auto. lia.
  Qed.

  Lemma create_inv s o pr amts r lp s' :
    cfg_ok C -> amm_inv s -> user C r -> u128_ok amts.1 -> u128_ok amts.2 ->
    create_pool C P s o pr amts r lp = Ok s' -> amm_inv s'.
  Proof.
    intros HC I [Hu1 Hu2] Hd1 Hd2 H. destruct pr as [a b]. unfold u128_ok in *.
    apply create_pool_spec in H.
    destruct H as (p & L & _ & Hne & Hnone & Hiss & Hadd & ->).
    set (am := if a <? b then (amts.2, amts.1) else amts) in *.
    assert (Ham : 0 <= am.1 /\ 0 <= am.2) by (subst am; destruct (a <? b); cbn; lia).
    clearbody am. destruct am as [ib iq]. cbn in Ham. unfold pair_key in Hadd.
    destruct (add_liq_spec _ _ _ _ _ _ _ _ _ (proj1 Ham) (proj2 Ham) Hadd) as
      (liq & locked & A0 & A1 & A2 & A3 & A4 & _ & _ & _ & A5 & A6 & A7 & A8 & A9 & A10 & _).
    cbn [new_pool p_lp p_base p_quote] in *.
    destruct A7 as [(_ & -> & ->)|(? & _)]; [|congruence].
    destruct HC as (Hfee & Hml & Hacc).
    assert (Hsq : 0 < Z.sqrt (ib * iq)) by lia.
    assert (Hib : 0 < ib).
    { destruct (decide (ib = 0)) as [->|]; [|lia]. rewrite Z.mul_0_l in Hsq. cbn in Hsq. lia. }
    assert (Hiq : 0 < iq).
    { destruct (decide (iq = 0)) as [->|]; [|lia]. rewrite Z.mul_0_r in Hsq. cbn in Hsq. lia. }
    assert (Hfresh : forall k q, pools s !! k = Some q -> p_lp q <> lp).
    { intros k q Hk E. pose proof (inv_lock s I k q Hk). pose proof (bal_le_iss (led s) (p_lp q) (lock_acct C) (inv_wf s I)).
      rewrite E in *. lia. }
    assert (Hlk : forall x, bal (led s) x (lock_acct C) <= bal L x (lock_acct C)).
    { intros x. rewrite A8. pose proof (at_nonneg lp (lock_acct C) x (lock_acct C) (min_liq C) ltac:(lia)).
      rewrite !(at_other _ r) by auto. rewrite !(at_other _ (amm_acct C)) by auto. lia. }
    split; cbn.
    - apply A10, inv_wf, I.
    - intros k q. destruct (decide (k = pair_key a b)) as [->|Hk].
      + rewrite lookup_insert. intros _. unfold pair_key; cbn. lia.
      + rewrite lookup_insert_ne by auto. apply inv_key; auto.
    - intros k q. destruct (decide (k = pair_key a b)) as [->|Hk].
      + rewrite lookup_insert. intros [= <-]. lia.
      + rewrite lookup_insert_ne by auto. apply inv_pos; auto.
    - intros k q. destruct (decide (k = pair_key a b)) as [->|Hk].
      + rewrite lookup_insert. intros [= <-]. rewrite A4, A8.
        rewrite !(at_other _ r) by auto. rewrite !(at_other _ (amm_acct C)) by auto.
        rewrite at_same, bool_decide_true by auto. destruct (inv_wf s I) as [Hb _]. pose proof (Hb lp (lock_acct C)). lia.
      + rewrite lookup_insert_ne by auto. intros Hq. pose proof (inv_lock s I k q Hq). pose proof (Hlk (p_lp q)). lia.
    - intros k1 q1 k2 q2.
      destruct (decide (k1 = pair_key a b)) as [->|Hk1], (decide (k2 = pair_key a b)) as [->|Hk2];
        rewrite ?lookup_insert, ?lookup_insert_ne by auto; auto.
      + intros [= <-] Hq2 E. rewrite A4 in E. destruct (Hfresh _ _ Hq2); auto.
      + intros Hq1 [= <-] E. rewrite A4 in E. destruct (Hfresh _ _ Hq1); auto.
      + apply inv_uniq; auto.
    - intros x. rewrite total_reserves_new by auto. cbn [led set_pool]. rewrite A8.
      pose proof (inv_solv s I x). unfold reserve, pair_key; cbn.
      pose proof (at_nonneg lp (lock_acct C) x (amm_acct C) (min_liq C) ltac:(lia)).
      rewrite !(at_other _ r) by auto. rewrite !at_same.
      repeat case_bool_decide; lia.
  Qed.

  Lemma inv_ledger s L :
    amm_inv s -> ledger_wf L ->
    (forall a, is_lp s a -> min_liq C <= bal L a (lock_acct C)) ->
    (forall a, bal (led s) a (amm_acct C) <= bal L a (amm_acct C)) ->
    amm_inv (set_led s L).
  Proof.
    intros I W Hl Hs. split; cbn; try apply I; auto.
    - intros k p Hk. apply Hl. exists k, p; auto.
    - intros a. pose proof (inv_solv s I a). specialize (Hs a). cbn. unfold total_reserves in *; cbn. lia.
  Qed.

  Lemma step_inv s o s' :
    cfg_ok C -> amm_inv s -> amm_op_ok C s o -> amm_step C P s o = Ok s' -> amm_inv s'.
  Proof.
    intros HC I Hop H. destruct o; cbn in Hop, H.
    - destruct Hop as (? & ? & ?). eapply add_inv; eauto.
    - destruct Hop. eapply remove_inv; eauto.
    - destruct Hop as (? & ? & ?). eapply create_inv; eauto.
    - bstep H x E. destruct x as [out s1]. injection H as <-. destruct Hop as (? & ? & ?). eapply swap_inv; eauto.
    - unfold update_protocol_fee in H. bstep H u E. injection H as <-. destruct I. split; auto.
    - unfold update_protocol_fee_receiver in H. bstep H u E. injection H as <-. destruct I. split; auto.
    - bstep H L E. injection H as <-. destruct Hop as ([Hu1 Hu2] & Ha). unfold u128_ok in Ha.
      apply inv_ledger; auto.
      + eapply transfer_wf; [|apply inv_wf, I|exact E]. lia.
      + intros x (k & p & Hk & <-). apply transfer_spec in E. destruct E as (E & _). rewrite E.
        rewrite at_other by auto. pose proof (inv_lock s I k p Hk).
        pose proof (at_nonneg a to (p_lp p) (lock_acct C) amt ltac:(lia)). lia.
      + intros x. apply transfer_spec in E. destruct E as (E & _). rewrite E. rewrite at_other by auto.
        pose proof (at_nonneg a to x (amm_acct C) amt ltac:(lia)). lia.
    - bstep H L E. injection H as <-. destruct Hop as (Ha & _). unfold u128_ok in Ha.
      apply inv_ledger; auto.
      + eapply mint_wf; [apply inv_wf, I|exact E].
      + intros x (k & p & Hk & <-). apply mint_spec in E. destruct E as (_ & E & _). rewrite E.
        pose proof (inv_lock s I k p Hk).
        pose proof (at_nonneg a w (p_lp p) (lock_acct C) amt ltac:(lia)). lia.
      + intros x. apply mint_spec in E. destruct E as (_ & E & _). rewrite E.
        pose proof (at_nonneg a w x (amm_acct C) amt ltac:(lia)). lia.
    - bstep H L E. injection H as <-. destruct Hop as ([Hu1 Hu2] & Ha & _). unfold u128_ok in Ha.
      apply inv_ledger; auto.
      + eapply burn_wf; [apply inv_wf, I|exact E].
      + intros x (k & p & Hk & <-). apply burn_spec in E. destruct E as (_ & _ & E & _). rewrite E.
        rewrite at_other by auto. pose proof (inv_lock s I k p Hk). lia.
      + intros x. apply burn_spec in E. destruct E as (_ & _ & E & _). rewrite E. rewrite at_other by auto. lia.
  Qed.

  Lemma init_inv L : ledger_wf L -> amm_inv (amm_init L).
  Proof.
    intros W. split; cbn; auto; try (intros; rewrite lookup_empty in *; discriminate).
    intros a. unfold total_reserves; cbn. rewrite msum_empty. apply W.
  Qed.

  Lemma reachable_inv s : cfg_ok C -> amm_reachable C P s -> amm_inv s.
  Proof.
    intros HC H. induction H as [L W | s o H IH Hop].
    - apply init_inv; auto.
    - unfold amm_exec. destruct (amm_step C P s o) eqn:E; auto. eapply step_inv; eauto.
  Qed.
End inv.
