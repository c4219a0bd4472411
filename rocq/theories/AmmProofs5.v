(** * AmmProofs5: exact amounts of swaps and liquidity calls, progress of swaps and withdrawals. *)
From Verif Require Import Base MapSum Ledger AmmModel AmmSpec AmmProofs AmmInv AmmProofs2 AmmProofs3 AmmProofs4.

Definition lenient (P : policy) : Prop :=
  (forall ka L a f t v, allow_transfer P ka L a f t v = true) /\
  (forall L a w v, allow_mint P L a w v = true) /\ (forall L a w v, allow_burn P L a w v = true).

Section exact.
  Context (C : amm_cfg) (P : policy).

  Lemma chk_ok x : 0 <= x <= U128MAX -> chk x = Some x.
  Proof. intros H. apply chk_some. auto. Qed.
  Lemma cdiv_bounds a b : 0 < b -> (cdiv a b - 1) * b < a <= cdiv a b * b.
  Proof. intros Hb. unfold cdiv. pose proof (Z.div_mod (a + b - 1) b). pose proof (Z.mod_pos_bound (a + b - 1) b). nia. Qed.

  Lemma swap_exact now s who ai ao amt out s' :
    cfg_ok C -> reserves_nonneg s -> 0 <= amt -> do_swap C P now s who (ai, ao) amt = Ok (out, s') ->
    exists p fee net, let k := pair_key ai ao in
      ai <> ao /\ pools s !! k = Some p /\
      (fee - 1) * PMILL < lp_fee C * amt <= fee * PMILL /\ net = amt - fee /\ 0 <= net /\
      out * (reserve k p ai + net) <= net * reserve k p ao < (out + 1) * (reserve k p ai + net) /\
      get_amounts_out C (pools s) amt [ai; ao] = Ok [amt; out].
  Proof.
    intros HC NN A H. apply do_swap_spec in H as (p & p1 & p2 & L1 & L2 & H). cbv zeta in H.
    destruct H as (Hne & Hp & _ & Hro & Hout & _). destruct (NN _ _ Hp) as [N1 N2].
    pose proof (get_amount_out_spec C _ _ _ _ Hout) as (G1 & G2 & G3).
    pose proof (net_in_bounds C amt HC A) as NB.
    exists p, (p_mul_ceil (lp_fee C) amt), (net_in C amt). cbv zeta.
    split; [auto|]. split; [auto|]. split; [apply cdiv_bounds; reflexivity|]. split; [reflexivity|]. split; [lia|].
    pose proof (reserve_nonneg (pair_key ai ao) p ai N1 N2). pose proof (reserve_nonneg (pair_key ai ao) p ao N1 N2).
    split.
    - set (d := reserve _ p ai + net_in C amt) in *. set (n := net_in C amt * _) in *.
      pose proof (Z.div_mod n d G1). pose proof (Z.mod_pos_bound n d ltac:(lia)). subst out. nia.
    - cbn. unfold get_reserves. rewrite (sort_assets_ok _ _ Hne). cbn.
      change (Z.max ai ao, Z.min ai ao) with (pair_key ai ao). rewrite Hp. cbn.
      pose proof (reserve_in_out (ai <? ao) ai ao p Hne eq_refl) as R.
      rewrite R. cbn. rewrite Hout. reflexivity.
  Qed.

  Lemma ideal_exact p b q ib iq :
    0 < p_base p -> 0 < p_quote p -> get_ideal_amounts p (b, q) = Ok (ib, iq) ->
    (ib = b /\ iq = b * p_quote p / p_base p) \/ (iq = q /\ ib = q * p_base p / p_quote p).
  Proof.
    intros Hb Hq H. unfold get_ideal_amounts, pool_is_empty in H. replace (p_base p =? 0) with false in H by lia. cbn [andb] in H.
    unfold quote in H. replace (p_base p =? 0) with false in H by lia. bstep H x Ex. apply chk_some in Ex as [-> Ex].
    destruct (_ <=? _).
    - injection H as <- <-. auto.
    - replace (p_quote p =? 0) with false in H by lia. bstep H y Ey. apply chk_some in Ey as [-> Ey]. injection H as <- <-. auto.
  Qed.

  Lemma reserve_max a b p : a <> b ->
    (reserve (pair_key a b) p a = if a <? b then p_quote p else p_base p) /\
    (reserve (pair_key a b) p b = if a <? b then p_base p else p_quote p).
  Proof.
    intros H. unfold reserve, pair_key; cbn. destruct (a <? b) eqn:E.
    - split; [rewrite (bool_decide_false (a = Z.max a b)), (bool_decide_true (a = Z.min a b)) by lia; lia|].
      rewrite (bool_decide_true (b = Z.max a b)), (bool_decide_false (b = Z.min a b)) by lia; lia.
    - split; [rewrite (bool_decide_true (a = Z.max a b)), (bool_decide_false (a = Z.min a b)) by lia; lia|].
      rewrite (bool_decide_false (b = Z.max a b)), (bool_decide_true (b = Z.min a b)) by lia; lia.
  Qed.

  (** the amounts taken keep the pool ratio up to rounding in the pool's favour... and the shares are the smaller of the two
      pro-rata amounts *)
  Lemma add_exact s who a b desired minimum s' :
    cfg_ok C -> amm_inv C s -> u128_ok desired.1 -> u128_ok desired.2 ->
    add_liquidity C P s who (a, b) desired minimum = Ok s' ->
    exists p p' ta tb fee, let k := pair_key a b in let lp := p_lp p in let T := iss (led s) lp + fee in
      pools s !! k = Some p /\ pools s' = <[k := p']> (pools s) /\
      reserve k p' a = reserve k p a + ta /\ reserve k p' b = reserve k p b + tb /\
      ((ta = desired.1 /\ tb = desired.1 * reserve k p b / reserve k p a) \/
       (tb = desired.2 /\ ta = desired.2 * reserve k p a / reserve k p b)) /\
      0 <= fee /\ (protocol_fee_on s = false -> fee = 0) /\
      iss (led s') lp = T + Z.min (ta * T / reserve k p a) (tb * T / reserve k p b).
  Proof.
    intros HC I Hd1 Hd2 H. unfold u128_ok in *.
    apply add_liquidity_spec in H; try lia; [|eapply inv_nonneg; eauto].
    destruct H as (p & p1 & L1 & p2 & L2 & ib & iq & f & Hne & Hp & Hid & Hib & Hiq & _ & _ & Hf & Hadd & ->).
    destruct (mint_fee_spec _ _ _ _ _ _ Hf) as (recv & F0 & F1 & F2 & F3 & _ & _ & _ & F4 & F5 & F6 & F7).
    unfold pair_key in Hadd.
    destruct (add_liq_spec _ _ _ _ _ _ _ _ _ _ _ (proj1 Hib) (proj1 Hiq) Hadd) as
      (liq & locked & Q0 & Q1 & B1 & B2 & B3 & _ & _ & _ & _ & _ & S & _ & I2 & _).
    cbn [led set_led] in *. rewrite F1, F2, F3, F5, bool_decide_true in * by auto.
    destruct (inv_pos C s I _ _ Hp) as [P1 P2]. pose proof (inv_iss_pos C s _ _ HC I Hp) as IP. destruct HC as (_ & HC & _).
    destruct S as [(S & _)|(_ & -> & _ & _ & ->)]; [lia|].
    destruct (reserve_max a b p Hne) as [R1 R2]. destruct (reserve_max a b p2 Hne) as [R1' R2'].
    assert (X : (ib = (if a <? b then desired.2 else desired.1) /\ iq = ib * p_quote p / p_base p) \/
                (iq = (if a <? b then desired.1 else desired.2) /\ ib = iq * p_base p / p_quote p)).
    { destruct desired as [d1 d2]. destruct (a <? b); apply ideal_exact in Hid; try lia; cbn in *; destruct Hid as [[-> ->]|[-> ->]]; auto. }
    exists p, p2, (if a <? b then iq else ib), (if a <? b then ib else iq), f. cbv zeta.
    rewrite R1, R2, R1', R2'. cbn [pools set_pool led].
    split; [auto|]. split; [reflexivity|]. split; [destruct (a <? b); lia|]. split; [destruct (a <? b); lia|]. split.
    { destruct (a <? b); destruct X as [[-> ->]|[-> ->]]; auto. }
    split; [auto|]. split; [intros E; apply F7 in E as [E _]; exact E|].
    rewrite I2, F5. rewrite !bool_decide_true by auto.
    destruct (a <? b); [rewrite Z.min_comm|]; lia.
  Qed.

  Lemma create_exact s o a b amts r lp s' :
    cfg_ok C -> u128_ok amts.1 -> u128_ok amts.2 -> user C r -> a <> lp -> b <> lp ->
    create_pool C P s o (a, b) amts r lp = Ok s' ->
    exists p, let k := pair_key a b in
      pools s' = <[k := p]> (pools s) /\ p_lp p = lp /\ reserve k p a = amts.1 /\ reserve k p b = amts.2 /\
      iss (led s') lp = Z.sqrt (amts.1 * amts.2) /\ min_liq C <= Z.sqrt (amts.1 * amts.2) /\
      (forall x w, bal (led s') x w = bal (led s) x w
         + at_ lp r x w (Z.sqrt (amts.1 * amts.2) - min_liq C) + at_ lp (lock_acct C) x w (min_liq C)
         - at_ a r x w amts.1 + at_ a (amm_acct C) x w amts.1 - at_ b r x w amts.2 + at_ b (amm_acct C) x w amts.2).
  Proof.
    intros HC U1 U2 UR Na Nb H. unfold u128_ok in *. apply create_pool_spec in H as (p & L & H). cbv zeta in H.
    destruct H as (_ & Hne & _ & Hi & Hadd & ->).
    destruct (if a <? b then (amts.2, amts.1) else amts) as [ib iq] eqn:Ep.
    assert (Hib : 0 <= ib /\ 0 <= iq) by (destruct (a <? b); [|rewrite (surjective_pairing amts) in Ep]; injection Ep as <- <-; lia).
    unfold pair_key in Hadd. destruct (add_liq_spec _ _ _ _ _ _ _ _ _ _ _ (proj1 Hib) (proj2 Hib) Hadd) as
      (liq & locked & Q0 & Q1 & B1 & B2 & B3 & _ & _ & _ & _ & _ & S & Bal & I2 & _). cbn [p_lp new_pool p_base p_quote] in *.
    destruct S as [(_ & -> & ->)|(S & _)]; [|lia].
    assert (Hprod : ib * iq = amts.1 * amts.2).
    { destruct (a <? b); [|rewrite (surjective_pairing amts) in Ep]; injection Ep as <- <-; lia. }
    rewrite Hprod in *. destruct (reserve_max a b p Hne) as [R1 R2].
    exists p. cbv zeta. cbn [pools set_pool led]. split; [reflexivity|]. split; [auto|]. rewrite R1, R2, I2, bool_decide_true by auto.
    assert (Hamt : (if a <? b then p_quote p else p_base p) = amts.1 /\ (if a <? b then p_base p else p_quote p) = amts.2).
    { destruct (a <? b); [|rewrite (surjective_pairing amts) in Ep]; injection Ep as <- <-; lia. }
    split; [lia|]. split; [lia|]. split; [lia|]. split; [lia|].
    intros x w. rewrite Bal. destruct (a <? b) eqn:E.
    - injection Ep as <- <-. replace (Z.max a b) with b by lia. replace (Z.min a b) with a by lia. lia.
    - rewrite (surjective_pairing amts) in Ep; injection Ep as <- <-.
      replace (Z.max a b) with a by lia. replace (Z.min a b) with b by lia. lia.
  Qed.

  (** ** progress *)
  Lemma transfer_prog L a f t v k : lenient P -> 0 <= v -> v <= bal L a f -> exists L', transfer P L a f t v k = Ok L'.
  Proof.
    intros (HP & _) V0 V1. unfold transfer. destruct (v =? 0) eqn:E0; [eauto|]. rewrite HP. cbn.
    destruct (f =? t); [eauto|]. replace ((0 <? v) && (v <=? bal L a f)) with true by lia. eauto.
  Qed.
  Lemma burn_prog L a w v : lenient P -> 0 <= v -> v <= bal L a w -> exists L', burn_from P L a w v = Ok L'.
  Proof.
    intros (_ & _ & HP) V0 V1. unfold burn_from. destruct (v =? 0) eqn:E0; [eauto|]. rewrite HP. cbn.
    replace ((0 <? v) && (v <=? bal L a w)) with true by lia. eauto.
  Qed.
  Lemma mint_prog L a w v : lenient P -> 0 <= v -> 0 <= iss L a -> iss L a + v <= U128MAX -> exists L', mint_into P L a w v = Ok L'.
  Proof.
    intros (_ & HP & _) V0 I0 V1. unfold mint_into. destruct (v =? 0) eqn:E0; [eauto|]. rewrite HP. cbn.
    replace (v <? 0) with false by lia. unfold checked_add. rewrite (chk_ok (iss L a + v)) by lia. cbn. eauto.
  Qed.

  Lemma reserve_le_bal s k p a : amm_inv C s -> pools s !! k = Some p -> reserve k p a <= bal (led s) a (amm_acct C).
  Proof.
    intros I Hp. etransitivity; [|apply (inv_solv C s I)]. unfold total_reserves.
    apply (msum_ge_elem (fun k p => reserve k p a) (pools s) k p); auto.
    intros k' v Hv. destruct (inv_pos C s I _ _ Hv). apply reserve_nonneg; lia.
  Qed.

  Lemma mint_fee_prog s p :
    amm_inv C s -> lenient P -> 0 < p_base p -> 0 < p_quote p -> 0 < iss (led s) (p_lp p) ->
    (protocol_fee_on s = true -> 0 < pfee s /\ 2 * pfee s <= PMILL /\ 2 * iss (led s) (p_lp p) <= U128MAX) ->
    exists r, do_mint_protocol_fee P s p = Ok r.
  Proof.
    intros I LP Hb Hq HT Hon. unfold do_mint_protocol_fee. destruct (protocol_fee_on s) eqn:E; cbn [negb]; [|eauto].
    specialize (Hon eq_refl) as (H1 & H2 & H3).
    set (rk := Z.sqrt (p_base p * p_quote p)). set (rl := Z.sqrt (p_base_last p * p_quote_last p)).
    assert (R0 : 0 <= rl) by apply Z.sqrt_nonneg. assert (K0 : 0 <= rk) by apply Z.sqrt_nonneg. clearbody rk rl.
    destruct (rk <=? rl) eqn:Ek; [eauto|]. unfold fee_reciprocal, p_recip_mul_floor. replace (pfee s =? 0) with false by lia. cbn [rbind].
    set (rc := sat128 (1 * PMILL / pfee s)).
    assert (RC : 2 <= rc).
    { unfold rc, sat128. assert (2 <= 1 * PMILL / pfee s) by (apply Z.div_le_lower_bound; lia). clear rc.
      assert (2 <= U128MAX) by (apply Z.leb_le; vm_compute; reflexivity). lia. }
    assert (RU : rc <= U128MAX) by (pose proof U128MAX_pos; unfold rc, sat128; lia). clearbody rc.
    unfold checked_sub. rewrite (chk_ok (rc - 1)) by lia. cbn [ok_or rbind].
    unfold checked_div. assert (D0 : 0 < rk * (rc - 1) + rl) by nia.
    replace (rk * (rc - 1) + rl =? 0) with false by lia. cbn [ok_or rbind].
    set (T := iss (led s) (p_lp p)) in *. set (f := (rk - rl) * T / (rk * (rc - 1) + rl)).
    assert (F0 : 0 <= f <= T).
    { split; [apply Z.div_pos; nia|]. apply Z.div_le_upper_bound; nia. }
    rewrite (chk_ok f) by lia. cbn [ok_or rbind].
    unfold protocol_fee_on in E. apply andb_prop in E as [_ E]. apply bool_decide_eq_true in E as [r E]. rewrite E. cbn [ok_or rbind].
    destruct (mint_prog (led s) (p_lp p) r f LP) as [L' ->]; try (fold T; lia). cbn. eauto.
  Qed.

  Lemma remove_prog s who a b l p :
    cfg_ok C -> amm_inv C s -> lenient P -> user C who -> a <> b -> pools s !! pair_key a b = Some p ->
    0 <= l <= bal (led s) (p_lp p) who ->
    (protocol_fee_on s = true -> 0 < pfee s /\ 2 * pfee s <= PMILL /\ 2 * iss (led s) (p_lp p) <= U128MAX) ->
    exists s', remove_liquidity C P s who (a, b) l = Ok s'.
  Proof.
    intros HC I LP [U1 U2] Hne Hp Hl Hon. destruct (inv_pos C s I _ _ Hp) as [P1 P2]. pose proof (inv_iss_pos C s _ _ HC I Hp) as IP.
    unfold remove_liquidity. rewrite (sort_assets_ok _ _ Hne). cbn [rbind].
    change (Z.max a b, Z.min a b) with (pair_key a b) at 1. rewrite Hp. cbn [ok_or rbind].
    destruct (mint_fee_prog s p I LP) as [[[f p1] L1] Hf]; try lia. { destruct HC as (_ & HC & _); lia. } { auto. }
    rewrite Hf. cbn [rbind]. destruct (mint_fee_spec _ _ _ _ _ _ Hf) as (recv & F0 & F1 & F2 & F3 & _ & _ & _ & F4 & F5 & F6 & _).
    unfold do_remove_liquidity, calculate_reserves_to_remove. rewrite F3, F1, F2.
    pose proof (F6 (inv_wf C s I)) as W. pose proof (bal_le_iss L1 (p_lp p) who W) as BL.
    rewrite F5, bool_decide_true in * by auto. set (T := iss (led s) (p_lp p) + f) in *.
    assert (BW : bal (led s) (p_lp p) who <= bal L1 (p_lp p) who) by (rewrite F4; unfold at_; case_bool_decide; lia).
    assert (T0 : 0 < T) by (destruct HC as (_ & HC & _); lia). unfold checked_div. replace (T =? 0) with false by lia. cbn [ok_or rbind].
    assert (XB : 0 <= l * p_base p / T <= p_base p) by (split; [apply Z.div_pos; nia|apply Z.div_le_upper_bound; nia]).
    assert (XQ : 0 <= l * p_quote p / T <= p_quote p) by (split; [apply Z.div_pos; nia|apply Z.div_le_upper_bound; nia]).
    set (xb := l * p_base p / T) in *. set (xq := l * p_quote p / T) in *. clearbody xb xq.
    rewrite (chk_ok xb) by lia. cbn [ok_or rbind]. rewrite (chk_ok xq) by lia. cbn [ok_or rbind].
    unfold checked_sub. rewrite (chk_ok (p_base p - xb)) by lia. cbn [ok_or rbind].
    rewrite (chk_ok (p_quote p - xq)) by lia. cbn [ok_or rbind].
    destruct (burn_prog L1 (p_lp p) who l LP) as [L2 E2]; try lia. rewrite E2. cbn [rbind].
    apply burn_spec in E2 as (_ & _ & B2 & _).
    pose proof (reserve_le_bal s _ p (Z.max a b) I Hp) as RB. pose proof (reserve_le_bal s _ p (Z.min a b) I Hp) as RQ.
    unfold reserve, pair_key in RB, RQ. cbn in RB, RQ.
    rewrite bool_decide_true, bool_decide_false in RB by lia. rewrite bool_decide_false, bool_decide_true in RQ by lia.
    assert (A : forall x, bal (led s) x (amm_acct C) <= bal L2 x (amm_acct C)).
    { intros x. rewrite B2, F4. rewrite (at_other _ who) by auto. pose proof (at_nonneg (p_lp p) recv x (amm_acct C) f F0). lia. }
    destruct (transfer_prog L2 (Z.max a b) (amm_acct C) who xb (ka C (Z.max a b)) LP) as [L3 E3]; [lia|specialize (A (Z.max a b)); lia|].
    rewrite E3. cbn [rbind]. apply transfer_spec in E3 as (B3 & _).
    destruct (transfer_prog L3 (Z.min a b) (amm_acct C) who xq (ka C (Z.min a b)) LP) as [L4 E4]; [lia| |].
    { rewrite B3. unfold at_. rewrite !bool_decide_false by (intros [? ?]; first [lia|congruence]). specialize (A (Z.min a b)). lia. }
    rewrite E4. cbn [rbind]. eauto.
  Qed.

  Lemma add_prog s who a b d1 d2 p :
    cfg_ok C -> amm_inv C s -> lenient P -> user C who -> a <> b -> pools s !! pair_key a b = Some p -> protocol_fee_on s = false ->
    let k := pair_key a b in let T := iss (led s) (p_lp p) in
    0 <= d1 <= bal (led s) a who -> 0 <= d2 <= bal (led s) b who ->
    reserve k p a + d1 <= U128MAX -> reserve k p b + d2 <= U128MAX ->
    d1 * reserve k p b / reserve k p a <= U128MAX -> d2 * reserve k p a / reserve k p b <= U128MAX ->
    T + d1 * T / reserve k p a <= U128MAX -> T + d2 * T / reserve k p b <= U128MAX ->
    exists s', add_liquidity C P s who (a, b) (d1, d2) (0, 0) = Ok s'.
  Proof.
    intros HC I LP [U1 U2] Hne Hp Hoff k T D1 D2 O1 O2 Q1 Q2 M1 M2.
    destruct (inv_pos C s I _ _ Hp) as [P1 P2]. pose proof (inv_iss_pos C s _ _ HC I Hp) as IP.
    assert (T0 : 0 < T) by (unfold T; destruct HC as (_ & HC & _); lia).
    destruct (reserve_max a b p Hne) as [R1 R2]. fold k in R1, R2. rewrite R1, R2 in *. clear R1 R2.
    unfold add_liquidity. rewrite (sort_assets_ok _ _ Hne). cbn [rbind fst snd].
    set (db := if a <? b then d2 else d1). set (dq := if a <? b then d1 else d2).
    replace (if a <? b then (d2, d1) else (d1, d2)) with (db, dq) by (unfold db, dq; destruct (a <? b); reflexivity).
    replace (if a <? b then (0, 0) else (0, 0)) with (0, 0) by (destruct (a <? b); reflexivity).
    fold k in Hp. change (Z.max a b, Z.min a b) with k. rewrite Hp. cbn [ok_or rbind].
    assert (Db : 0 <= db <= bal (led s) (Z.max a b) who /\ 0 <= dq <= bal (led s) (Z.min a b) who /\ p_base p + db <= U128MAX /\
       p_quote p + dq <= U128MAX /\ db * p_quote p / p_base p <= U128MAX /\ dq * p_base p / p_quote p <= U128MAX /\
       T + db * T / p_base p <= U128MAX /\ T + dq * T / p_quote p <= U128MAX).
    { unfold db, dq. destruct (a <? b) eqn:E.
      - replace (Z.max a b) with b by lia. replace (Z.min a b) with a by lia. tauto.
      - replace (Z.max a b) with a by lia. replace (Z.min a b) with b by lia. tauto. }
    clear D1 D2 O1 O2 Q1 Q2 M1 M2. clearbody db dq. destruct Db as (D1 & D2 & O1 & O2 & Q1 & Q2 & M1 & M2).
    assert (ID : exists ib iq, get_ideal_amounts p (db, dq) = Ok (ib, iq) /\ 0 <= ib <= db /\ 0 <= iq <= dq).
    { unfold get_ideal_amounts, pool_is_empty, quote. replace (p_base p =? 0) with false by lia. cbn [andb].
      rewrite (chk_ok (db * p_quote p / p_base p)) by (split; [apply Z.div_pos; nia|lia]). cbn [ok_or rbind].
      destruct (_ <=? dq) eqn:E.
      - exists db, (db * p_quote p / p_base p). split; [reflexivity|]. split; [lia|]. split; [apply Z.div_pos; nia|lia].
      - replace (p_quote p =? 0) with false by lia.
        rewrite (chk_ok (dq * p_base p / p_quote p)) by (split; [apply Z.div_pos; nia|lia]). cbn [ok_or rbind].
        exists (dq * p_base p / p_quote p), dq. split; [reflexivity|]. split; [|lia]. split; [apply Z.div_pos; nia|].
        apply Z.leb_gt in E. assert (dq * p_base p <= db * p_quote p).
        { pose proof (Z.mul_div_le (db * p_quote p) (p_base p) ltac:(lia)). nia. }
        apply Z.div_le_upper_bound; nia. }
    destruct ID as (ib & iq & Hid & Ib & Iq). rewrite Hid. cbn [rbind].
    replace ((ib <=? db) && (iq <=? dq)) with true by lia. replace ((0 <=? ib) && (0 <=? iq)) with true by lia. cbn [ensure rbind].
    unfold do_mint_protocol_fee. rewrite Hoff. cbn [negb rbind].
    set (p1 := if negb _ then _ else p).
    assert (HP1 : p_base p1 = p_base p /\ p_quote p1 = p_quote p /\ p_lp p1 = p_lp p) by (unfold p1; destruct (negb _); auto).
    clearbody p1. destruct HP1 as (X1 & X2 & X3). unfold do_add_liquidity, k, pair_key. cbn [led]. rewrite X1, X2, X3. fold T.
    replace (T =? 0) with false by lia. unfold checked_div. replace (p_base p =? 0) with false by lia. replace (p_quote p =? 0) with false by lia.
    cbn [ok_or rbind].
    assert (L0 : 0 <= ib * T / p_base p <= db * T / p_base p) by (split; [apply Z.div_pos; nia|apply Z.div_le_mono; nia]).
    assert (L1 : 0 <= iq * T / p_quote p <= dq * T / p_quote p) by (split; [apply Z.div_pos; nia|apply Z.div_le_mono; nia]).
    rewrite (chk_ok (ib * T / p_base p)) by lia. cbn [ok_or rbind]. rewrite (chk_ok (iq * T / p_quote p)) by lia. cbn [ok_or rbind].
    set (liq := Z.min _ _). assert (LQ : 0 <= liq /\ T + liq <= U128MAX) by (unfold liq; lia). clearbody liq.
    unfold checked_add. rewrite (chk_ok (p_base p + ib)) by lia. cbn [ok_or rbind]. rewrite (chk_ok (p_quote p + iq)) by lia. cbn [ok_or rbind].
    destruct (mint_prog (led s) (p_lp p) who liq LP) as [L2 E2]; try (fold T; lia). rewrite E2. cbn [rbind].
    apply mint_spec in E2 as (_ & B2 & _).
    assert (A : forall x, bal (led s) x who <= bal L2 x who) by (intros x; rewrite B2; pose proof (at_nonneg (p_lp p) who x who liq); lia).
    destruct (transfer_prog L2 (Z.max a b) who (amm_acct C) ib (ka C (Z.max a b)) LP) as [L3 E3]; [lia|specialize (A (Z.max a b)); lia|].
    rewrite E3. cbn [rbind]. apply transfer_spec in E3 as (B3 & _).
    destruct (transfer_prog L3 (Z.min a b) who (amm_acct C) iq (ka C (Z.min a b)) LP) as [L4 E4]; [lia| |].
    { rewrite B3. unfold at_. rewrite !bool_decide_false by (intros [? ?]; first [lia|congruence]). specialize (A (Z.min a b)). lia. }
    rewrite E4. cbn [rbind]. eauto.
  Qed.

  (** the price accumulators have room for the update of a trade in block [now] that leaves reserves [b'] and [q'] *)
  Definition oracle_room (now : Z) (p : pool) (b' q' : Z) : Prop :=
    p_ts p = now \/
    let e := Z.max 0 (now - p_ts p) in
    e * b' <= U128MAX /\ e * q' <= U128MAX /\
    p_price0 p + e * q' * FDIV / b' <= U128MAX /\ p_price1 p + e * b' * FDIV / q' <= U128MAX.

  Lemma sat128_le x : 0 <= x -> 0 <= sat128 x <= x.
  Proof. intros H. pose proof U128MAX_pos. unfold sat128. lia. Qed.

  Lemma oracle_prog now p b' q' :
    0 < b' -> 0 < q' -> 0 <= p_price0 p -> 0 <= p_price1 p -> oracle_room now p b' q' ->
    exists p', do_update_oracle now (set_reserves p b' q') = Ok p'.
  Proof.
    intros Hb Hq H0 H1 R. unfold do_update_oracle. cbn. destruct (p_ts p =? now) eqn:E; [eauto|].
    destruct R as [R|R]; [lia|]. cbv zeta in R. unfold saturating_sub. set (e := Z.max 0 (now - p_ts p)) in *.
    assert (0 <= e) by (unfold e; lia). clearbody e. destruct R as (R1 & R2 & R3 & R4).
    rewrite (chk_ok (e * q')) by nia. cbn [ok_or rbind]. unfold f_saturating_from_rational. replace (b' =? 0) with false by lia. cbn [rbind].
    rewrite (chk_ok (e * b')) by nia. cbn [ok_or rbind]. replace (q' =? 0) with false by lia. cbn [rbind].
    assert (F : 0 < FDIV) by reflexivity.
    pose proof (sat128_le (e * q' * FDIV / b') ltac:(apply Z.div_pos; nia)). pose proof (sat128_le (e * b' * FDIV / q') ltac:(apply Z.div_pos; nia)).
    set (x := sat128 _) in *. set (y := sat128 (e * b' * FDIV / q')) in *. clearbody x y.
    unfold checked_add. rewrite (chk_ok (p_price0 p + x)) by lia. cbn [ok_or rbind]. rewrite (chk_ok (p_price1 p + y)) by lia. cbn. eauto.
  Qed.

  Lemma swap_prog now s who ai ao amt p :
    cfg_ok C -> amm_inv C s -> lenient P -> who <> amm_acct C -> ai <> ao -> pools s !! pair_key ai ao = Some p ->
    0 < lp_fee C -> PMILL <= lp_fee C * amt -> 0 <= amt <= bal (led s) ai who ->
    0 <= p_price0 p -> 0 <= p_price1 p -> let k := pair_key ai ao in
    reserve k p ai + amt <= U128MAX ->
    (forall out, 0 <= out < reserve k p ao -> out * (reserve k p ai + amt) <= amt * reserve k p ao ->
       if ai <? ao then oracle_room now p (reserve k p ao - out) (reserve k p ai + amt)
       else oracle_room now p (reserve k p ai + amt) (reserve k p ao - out)) ->
    exists r, do_swap C P now s who (ai, ao) amt = Ok r.
  Proof.
    intros HC I LP Hu Hne Hp HF HM HA H0 H1 k Ho HO. destruct (inv_pos C s I _ _ Hp) as [P1 P2].
    unfold do_swap. rewrite (sort_assets_ok _ _ Hne). cbn [rbind]. change (Z.max ai ao, Z.min ai ao) with k.
    fold k in Hp. rewrite Hp. cbn [ok_or rbind]. rewrite (reserve_in_out (ai <? ao) ai ao p Hne eq_refl). fold k.
    assert (PI : 0 < reserve k p ai /\ 0 < reserve k p ao <= U128MAX).
    { unfold k. destruct (reserve_max ai ao p Hne) as [-> ->]. destruct (ai <? ao); lia. }
    unfold p_recip_mul_ceil. replace (lp_fee C =? 0) with false by lia. cbn [rbind].
    assert (MI : sat128 (cdiv (1 * PMILL) (lp_fee C)) <= amt).
    { pose proof (cdiv_bounds (1 * PMILL) (lp_fee C) HF). set (c := cdiv _ _) in *. clearbody c. unfold sat128.
      assert (c <= amt) by nia. pose proof U128MAX_pos. lia. }
    replace (sat128 _ <=? amt) with true by lia. cbn [ensure rbind]. replace (reserve k p ao =? 0) with false by lia. cbn [negb ensure rbind].
    pose proof (net_in_bounds C amt HC ltac:(lia)) as NB.
    assert (GO : exists out, get_amount_out C amt (reserve k p ai) (reserve k p ao) = Ok out).
    { unfold get_amount_out. unfold checked_sub. fold (net_in C amt). rewrite (chk_ok (net_in C amt)).
      2:{ split; [lia|]. etransitivity; [|exact Ho]. lia. }
      cbn [ok_or rbind]. unfold checked_div. replace (reserve k p ai + net_in C amt =? 0) with false by lia. cbn [ok_or rbind].
      rewrite chk_ok; [cbn; eauto|]. split; [apply Z.div_pos; nia|]. apply Z.div_le_upper_bound; nia. }
    destruct GO as [out GO]. rewrite GO. cbn [rbind].
    pose proof (get_amount_out_bounds C amt (reserve k p ai) (reserve k p ao) out HC ltac:(lia) ltac:(lia) ltac:(lia) GO) as (G1 & G2 & _ & _).
    set (n := net_in C amt) in *. clearbody n.
    assert (G3 : out < reserve k p ao). { destruct (Z.eq_dec out (reserve k p ao)) as [->|]; [nia|lia]. }
    assert (G4 : out * (reserve k p ai + amt) <= amt * reserve k p ao) by nia.
    unfold checked_add, checked_sub. rewrite (chk_ok (reserve k p ai + amt)) by lia. cbn [ok_or rbind].
    rewrite (chk_ok (reserve k p ao - out)) by lia. cbn [ok_or rbind]. specialize (HO out ltac:(lia) G4).
    assert (OR : exists p2, do_update_oracle now (if ai <? ao then set_reserves p (reserve k p ao - out) (reserve k p ai + amt)
       else set_reserves p (reserve k p ai + amt) (reserve k p ao - out)) = Ok p2).
    { destruct (ai <? ao); apply oracle_prog; auto; lia. }
    destruct OR as [p2 ->]. cbn [rbind].
    destruct (transfer_prog (led s) ai who (amm_acct C) amt (ka C ai) LP) as [L1 E1]; [lia|lia|]. rewrite E1. cbn [rbind].
    apply transfer_spec in E1 as (B1 & _).
    pose proof (reserve_le_bal s _ p ao I Hp) as RB.
    destruct (transfer_prog L1 ao (amm_acct C) who out (ka C ao) LP) as [L2 E2]; [lia| |].
    { rewrite B1. unfold at_. rewrite !bool_decide_false by (intros [? ?]; congruence). lia. }
    rewrite E2. cbn. eauto.
  Qed.

  (** with the first accumulator at the top no further update is possible *)
  Lemma oracle_stuck now p p' :
    p_price0 p = U128MAX -> p_ts p < now -> 0 < p_quote p -> 0 < p_base p -> p_base p <= p_quote p * FDIV -> do_update_oracle now p <> Ok p'.
  Proof.
    intros H0 Ht Hq Hb Hr H. apply do_update_oracle_spec in H as H'. destruct H' as (_ & _ & H1).
    specialize (H1 ltac:(lia)) as (_ & _ & _ & H1 & _). unfold do_update_oracle in H.
    replace (p_ts p =? now) with false in H by lia. bstep H n0 E0. bstep H x0 E1. bstep H n1 E2. bstep H x1 E3. bstep H c0 E4. bstep H c1 E5.
    injection H as <-. cbn in H1. destruct E4 as [-> E4]. rewrite H0 in *.
    set (q := _ / p_base p) in H1. assert (1 <= q) by (apply Z.div_le_lower_bound; [lia|]; nia). clearbody q.
    assert (0 < sat128 q) by (pose proof U128MAX_pos; unfold sat128; lia). lia.
  Qed.

  Lemma fee_proportion s p f p' L' :
    protocol_fee_on s = true -> 0 < pfee s <= PMILL -> 0 <= iss (led s) (p_lp p) -> do_mint_protocol_fee P s p = Ok (f, p', L') ->
    let rk := Z.sqrt (p_base p * p_quote p) in let rl := Z.sqrt (p_base_last p * p_quote_last p) in let T := iss (led s) (p_lp p) in
    (rk <= rl -> f = 0) /\ f * rk * (PMILL / pfee s) <= Z.max 0 (rk - rl) * (T + f).
  Proof.
    intros Hon Hf HT H rk rl T. unfold do_mint_protocol_fee in H. rewrite Hon in H. cbn [negb] in H. fold rk rl in H.
    assert (R0 : 0 <= rl) by apply Z.sqrt_nonneg. assert (K0 : 0 <= rk) by apply Z.sqrt_nonneg. clearbody rk rl.
    destruct (rk <=? rl) eqn:Ek. { injection H as <- <- <-. split; [auto|]. fold T in HT. nia. }
    unfold fee_reciprocal, p_recip_mul_floor in H. replace (pfee s =? 0) with false in H by lia. cbn [rbind] in H.
    bstep H sc Esc. destruct Esc as [-> Esc]. fold T in H, HT. bstep H q Eq. destruct Eq as [-> Eq]. bstep H g Eg. apply chk_some in Eg as [-> Eg].
    bstep H rv Er. bstep H L Em. injection H as <- <- <-. split; [lia|].
    assert (RC : sat128 (1 * PMILL / pfee s) = PMILL / pfee s).
    { unfold sat128. rewrite Z.mul_1_l. assert (0 <= PMILL / pfee s <= PMILL).
      { split; [apply Z.div_pos; [discriminate|lia]|]. apply Z.div_le_upper_bound; [lia|]. assert (0 < PMILL) by reflexivity. nia. }
      assert (PMILL <= U128MAX) by (apply Z.leb_le; vm_compute; reflexivity). lia. }
    rewrite RC in *. set (m := PMILL / pfee s) in *. clearbody m. assert (0 <= rk * (m - 1) + rl) by nia.
    set (d := rk * (m - 1) + rl) in *. pose proof (Z.mul_div_le ((rk - rl) * T) d ltac:(lia)) as M. set (g := _ / d) in *.
    clearbody g. unfold d in M. nia.
  Qed.

  Definition prices_ok (s : amm) : Prop :=
    forall k p, pools s !! k = Some p -> 0 <= p_price0 p <= U128MAX /\ 0 <= p_price1 p <= U128MAX.
  Lemma prices_set s k p p' L : prices_ok s -> pools s !! k = Some p -> p_price0 p' = p_price0 p -> p_price1 p' = p_price1 p ->
    prices_ok (set_pool s k p' L).
  Proof.
    intros H Hk E0 E1 k' q. cbn. destruct (decide (k' = k)) as [->|N]; [rewrite lookup_insert|rewrite lookup_insert_ne by auto; apply H].
    intros [= <-]. rewrite E0, E1. eapply H; eauto.
  Qed.
  Lemma oracle_bounds now p p' : 0 <= p_price0 p <= U128MAX -> 0 <= p_price1 p <= U128MAX -> do_update_oracle now p = Ok p' ->
    0 <= p_price0 p' <= U128MAX /\ 0 <= p_price1 p' <= U128MAX.
  Proof.
    intros H0 H1 H. unfold do_update_oracle in H. destruct (_ =? now). { injection H as <-. auto. }
    bstep H n0 E0. bstep H x0 E1. bstep H n1 E2. bstep H x1 E3. bstep H c0 E4. bstep H c1 E5. injection H as <-. cbn.
    destruct E4 as [-> ?], E5 as [-> ?]. lia.
  Qed.
  Lemma prices_reach s : cfg_ok C -> amm_reachable C P s -> prices_ok s.
  Proof.
    intros HC R. induction R as [L W|s o R IH OK]. { intros k p H. cbn in H. rewrite lookup_empty in H. discriminate H. }
    pose proof (reachable_inv C P s HC R) as I. unfold amm_exec. destruct (amm_step C P s o) as [s'| |] eqn:E; auto.
    destruct o; cbn [amm_step amm_op_ok] in *.
    - destruct OK as (_ & U1 & U2). unfold u128_ok in *. destruct pair as [a b]. apply add_liquidity_spec in E; try lia; [|eapply inv_nonneg; eauto].
      destruct E as (p & p1 & L1 & p2 & L2 & ib & iq & f & _ & Hp & _ & Hib & Hiq & _ & _ & Hf & Hadd & ->).
      destruct (mint_fee_spec _ _ _ _ _ _ Hf) as (recv & _ & _ & _ & _ & _ & F1 & F2 & _). unfold pair_key in Hadd.
      destruct (add_liq_spec _ _ _ _ _ _ _ _ _ _ _ (proj1 Hib) (proj1 Hiq) Hadd) as (liq & lk & _ & _ & _ & _ & _ & _ & B1 & B2 & _).
      eapply prices_set; eauto; congruence.
    - destruct pair as [a b]. apply remove_liquidity_spec in E as (p & p1 & L1 & p2 & L2 & f & x & y & _ & Hp & Hf & Hr & ->).
      destruct (mint_fee_spec _ _ _ _ _ _ Hf) as (recv & _ & _ & _ & _ & _ & F1 & F2 & _). unfold pair_key in Hr.
      apply remove_liq_spec in Hr as (_ & _ & _ & _ & _ & _ & _ & _ & _ & _ & _ & B1 & B2 & _). eapply prices_set; eauto; congruence.
    - destruct pair as [a b]. destruct OK as (_ & U1 & U2). unfold u128_ok in *.
      apply create_pool_spec in E as (p & L & _ & _ & Hn & _ & Hadd & ->).
      destruct (if a <? b then (amounts.2, amounts.1) else amounts) as [ib iq] eqn:Ep.
      assert (Hib : 0 <= ib /\ 0 <= iq) by (destruct (a <? b); [|rewrite (surjective_pairing amounts) in Ep]; injection Ep as <- <-; lia).
      unfold pair_key in Hadd. destruct (add_liq_spec _ _ _ _ _ _ _ _ _ _ _ (proj1 Hib) (proj2 Hib) Hadd) as
        (liq & lk & _ & _ & _ & _ & _ & _ & B1 & B2 & _).
      intros k' q. cbn. change (Z.max a b, Z.min a b) with (pair_key a b).
      destruct (decide (k' = pair_key a b)) as [->|N]; [rewrite lookup_insert|rewrite lookup_insert_ne by auto; apply IH].
      intros [= <-]. rewrite B1, B2. cbn. pose proof U128MAX_pos. lia.
    - apply rbind_ok in E as ([out s1] & E & [= <-]). destruct pair as [ai ao].
      apply do_swap_spec in E as (p & p1 & p2 & L1 & L2 & _ & Hp & -> & _ & _ & -> & Ho & _).
      destruct (IH _ _ Hp) as [Q0 Q1]. apply oracle_bounds in Ho; [|destruct (ai <? ao); cbn; auto..].
      intros k' q. cbn. destruct (decide (k' = pair_key ai ao)) as [->|N]; [rewrite lookup_insert|rewrite lookup_insert_ne by auto; apply IH].
      intros [= <-]. auto.
    - unfold update_protocol_fee in E. bstep E u E0. injection E as <-. exact IH.
    - unfold update_protocol_fee_receiver in E. bstep E u E0. injection E as <-. exact IH.
    - bstep E L E0. injection E as <-. exact IH.
    - bstep E L E0. injection E as <-. exact IH.
    - bstep E L E0. injection E as <-. exact IH.
  Qed.
End exact.
