From Verif Require Import Base MapSum Ledger AmmModel AmmSpec AmmProofs AmmInv AmmProofs4 AmmProofs5 StableModel StableSpec StableProofs StableProofs2.

Section ex.
  Context (C : ss_cfg) (P : policy).

  Lemma ss_get_reserves s a b p :
    a <> b -> ss_pools s !! pair_key a b = Some p ->
    get_reserves (ss_pools s) a b = Ok (reserve (pair_key a b) p a, reserve (pair_key a b) p b).
  Proof.
    intros Hne Hp. unfold get_reserves. rewrite (sort_assets_ok _ _ Hne). cbn [rbind].
    change (Z.max a b, Z.min a b) with (pair_key a b). rewrite Hp. cbn [ok_or rbind].
    pose proof (reserve_in_out (a <? b) a b p Hne eq_refl) as R. rewrite R. reflexivity.
  Qed.

  Lemma ss_iss_pos s k p : ss_cfg_ok C -> ss_inv C s -> ss_pools s !! k = Some p -> 0 < iss (ss_led s) (p_lp p).
  Proof.
    intros HC I Hp. pose proof (si_lock C s I k p Hp). pose proof (bal_le_iss (ss_led s) (p_lp p) (ss_lock C) (si_wf C s I)).
    destruct HC as (_ & _ & HC & _). lia.
  Qed.

  Lemma ss_reserve_le_bal s k p a : ss_inv C s -> ss_pools s !! k = Some p -> reserve k p a <= bal (ss_led s) a (ss_acct C).
  Proof.
    intros I Hp. etransitivity; [|apply (si_solv C s I)]. unfold ss_total.
    apply (msum_ge_elem (fun k p => reserve k p a) (ss_pools s) k p); auto.
    intros k' v Hv. destruct (si_pos C s I _ _ Hv). apply reserve_nonneg; lia.
  Qed.

  (** the protocol's part of the growth of D *)
  Lemma ss_mint_fee_exact L p f p' L' :
    ss_fee_on C = true -> ss_mint_fee C P L p = Ok (f, p', L') ->
    exists d0 d1, delta C (p_base_last p) (p_quote_last p) = Ok d0 /\ delta C (p_base p) (p_quote p) = Ok d1 /\
      (d1 <= d0 /\ f = 0 \/
       d0 < d1 /\ exists n, ss_fee_recip C = Ok n /\ 1 <= n /\ f = (d1 - d0) * iss L (p_lp p) / (d1 * (n - 1) + d0)).
  Proof.
    intros Hon H. unfold ss_mint_fee in H. rewrite Hon in H. cbn [negb] in H.
    bstep H d0 E0. bstep H d1 E1. apply unwrap_r_ok in E0, E1. exists d0, d1. split; [auto|]. split; [auto|].
    destruct (d1 <=? d0) eqn:Ed.
    - injection H as <- <- <-. left. lia.
    - bstep H rc Erc. bstep H sc Esc. bstep H q Eq. bstep H f' Ef. bstep H L1 Em. injection H as <- <- <-. right. split; [lia|].
      apply chk_some in Ef. destruct Esc as [-> Hsc]. destruct Eq as [-> Eq]. destruct Ef as [-> Ef]. exists rc. repeat split; auto. lia.
  Qed.

  Lemma ss_add_exact s who a b desired minimum s' :
    ss_cfg_ok C -> ss_inv C s -> ss_user C who -> u128_ok desired.1 -> u128_ok desired.2 ->
    ss_add C P s who (a, b) desired minimum = Ok s' ->
    exists p p' ta tb fee d0 d1 minted, let k := pair_key a b in let lp := p_lp p in let T := iss (ss_led s) lp + fee in
      a <> b /\ ss_pools s !! k = Some p /\ ss_pools s' = <[k := p']> (ss_pools s) /\ p_lp p' = lp /\
      minimum.1 <= ta <= desired.1 /\ minimum.2 <= tb <= desired.2 /\ 0 <= ta /\ 0 <= tb /\
      reserve k p' a = reserve k p a + ta /\ reserve k p' b = reserve k p b + tb /\
      compute_d (p_base p) (p_quote p) (ss_amp C) = Ok d0 /\ compute_d (p_base p') (p_quote p') (ss_amp C) = Ok d1 /\
      0 < d0 <= d1 /\ 0 <= fee /\ (ss_pfee C = 0 -> fee = 0) /\
      (let share := Z.min (ta * T / reserve k p a) (tb * T / reserve k p b) in
       minted = share + share * (d1 - d0) / d0) /\
      iss (ss_led s') lp = T + minted /\
      (forall x w, bal (ss_led s') x w = bal (ss_led s) x w + at_ lp (ss_receiver C) x w fee + at_ lp who x w minted
         - at_ a who x w ta + at_ a (ss_acct C) x w ta - at_ b who x w tb + at_ b (ss_acct C) x w tb).
  Proof.
    intros HC I [U1 U2] Hd1 Hd2 H. unfold u128_ok in *.
    apply ss_add_spec in H; try lia; [|eapply si_nonneg; eauto].
    destruct H as (p & p1 & L1 & p2 & L2 & ib & iq & f & Hne & Hp & Hid & Hib & Hiq & Hm1 & Hm2 & Hf & Hadd & ->).
    destruct (ss_mint_fee_spec _ _ _ _ _ _ _ Hf) as (F0 & F1 & F2 & F3 & _ & _ & _ & F4 & F5 & F6).
    unfold pair_key in Hadd.
    destruct (ss_do_add_spec _ _ _ _ _ _ _ _ _ _ _ _ (proj1 Hib) (proj1 Hiq) Hadd) as
      (liq & minted & locked & d0 & d1 & Al & A0 & A1 & A2 & A3 & A4 & _ & _ & _ & A5 & A6 & A7 & _ & A11 & A12 & _ & A8 & A9 & A10 & _).
    rewrite F1, F2, F3 in *. rewrite F5, bool_decide_true in A7, A12 by auto.
    pose proof (ss_iss_pos s _ _ HC I Hp) as IP.
    destruct A7 as [(A7 & _)|(_ & -> & B1 & B2 & ->)]; [lia|].
    destruct (A11 p Hp) as (tb & tq & G & D0 & D1 & D01).
    change (Z.max a b, Z.min a b) with (pair_key a b) in *.
    assert (Gr : tb = p_base p /\ tq = p_quote p).
    { unfold get_reserves in G. rewrite sort_assets_ok in G by (intros E; lia). cbn [rbind] in G.
      replace (Z.max (Z.max a b) (Z.min a b), Z.min (Z.max a b) (Z.min a b)) with (pair_key a b) in G by (unfold pair_key; f_equal; lia).
      rewrite Hp in G. cbn in G. replace (Z.max a b <? Z.min a b) with false in G by lia. injection G as <- <-. auto. }
    destruct Gr as [-> ->]. destruct (A12 ltac:(lia)) as [D0n ->].
    destruct (si_pos C s I _ _ Hp) as [P1 P2]. destruct (reserve_max a b p Hne) as [R1 R2]. destruct (reserve_max a b p2 Hne) as [R1' R2'].
    assert (D0p : 0 <= d0).
    { unfold delta, compute_d in D0. destruct (_ =? 0); [injection D0 as <-; lia|]. apply d_loop_last in D0; [|lia].
      destruct D0 as (e & _ & D0 & _). unfold d_round in D0. bstep D0 u Eu. injection D0 as <-. apply ndiv_nonneg. }
    eexists p, p2, (if a <? b then iq else ib), (if a <? b then ib else iq), f, d0, d1, _. cbv zeta.
    rewrite R1, R2, R1', R2'. cbn [ss_pools ss_set ss_led].
    split; [auto|]. split; [auto|]. split; [reflexivity|]. split; [auto|].
    assert (MM : (minimum.1 <= (if a <? b then iq else ib) <= desired.1) /\ (minimum.2 <= (if a <? b then ib else iq) <= desired.2)).
    { unfold sorted_amounts in *. destruct (a <? b); cbn in *; lia. }
    split; [apply MM|]. split; [apply MM|]. split; [destruct (a <? b); lia|]. split; [destruct (a <? b); lia|].
    split; [destruct (a <? b); lia|]. split; [destruct (a <? b); lia|].
    split; [exact D0|]. split; [rewrite A2, A3; exact D1|]. split; [lia|]. split; [auto|].
    split.
    { intros E. unfold ss_mint_fee, ss_fee_on in Hf. rewrite E in Hf. cbn [Z.eqb negb] in Hf. injection Hf as <- _ _. auto. }
    assert (MC : Z.min (ib * (iss (ss_led s) (p_lp p) + f) / p_base p) (iq * (iss (ss_led s) (p_lp p) + f) / p_quote p) =
       Z.min ((if a <? b then iq else ib) * (iss (ss_led s) (p_lp p) + f) / (if a <? b then p_quote p else p_base p))
             ((if a <? b then ib else iq) * (iss (ss_led s) (p_lp p) + f) / (if a <? b then p_base p else p_quote p))).
    { destruct (a <? b); [apply Z.min_comm|reflexivity]. }
    split; [rewrite <- MC; reflexivity|].
    split. { rewrite A9, F5. rewrite !bool_decide_true by auto. lia. }
    intros x w. rewrite A8, F4. replace (at_ (p_lp p) (ss_lock C) x w 0) with 0 by (clear; unfold at_; case_bool_decide; lia).
    destruct (a <? b) eqn:E.
    - replace (Z.max a b) with b by lia. replace (Z.min a b) with a by lia. lia.
    - replace (Z.max a b) with a by lia. replace (Z.min a b) with b by lia. lia.
  Qed.

  Lemma ss_remove_exact s who a b l s' :
    ss_remove C P s who (a, b) l = Ok s' ->
    exists p p' fee ra rb, let k := pair_key a b in let lp := p_lp p in let T := iss (ss_led s) lp + fee in
      a <> b /\ ss_pools s !! k = Some p /\ ss_pools s' = <[k := p']> (ss_pools s) /\ p_lp p' = lp /\
      0 <= l /\ 0 <= fee /\ (ss_pfee C = 0 -> fee = 0) /\
      (0 < l -> l <= bal (ss_led s) lp who + (if bool_decide (who = ss_receiver C) then fee else 0)) /\
      ra = l * reserve k p a / T /\ rb = l * reserve k p b / T /\
      reserve k p' a = reserve k p a - ra /\ reserve k p' b = reserve k p b - rb /\
      iss (ss_led s') lp = T - l /\
      (forall x w, bal (ss_led s') x w = bal (ss_led s) x w + at_ lp (ss_receiver C) x w fee - at_ lp who x w l
         + at_ a who x w ra - at_ a (ss_acct C) x w ra + at_ b who x w rb - at_ b (ss_acct C) x w rb).
  Proof.
    intros H. apply ss_remove_spec in H.
    destruct H as (p & p1 & L1 & p2 & L2 & f & rb & rq & Hne & Hp & Hf & Hrem & ->).
    destruct (ss_mint_fee_spec _ _ _ _ _ _ _ Hf) as (F0 & F1 & F2 & F3 & _ & _ & _ & F4 & F5 & F6).
    unfold pair_key in Hrem. apply ss_do_remove_spec in Hrem. cbn zeta in Hrem.
    destruct Hrem as (A0 & A1 & A2 & A3 & A4 & A5 & A6 & A7 & A8 & A9 & _ & _ & _ & A10 & A11 & A12).
    rewrite F1, F2, F3 in *. rewrite F5, bool_decide_true in A3, A4 by auto.
    destruct (reserve_max a b p Hne) as [R1 R2]. destruct (reserve_max a b p2 Hne) as [R1' R2'].
    exists p, p2, f, (if a <? b then rq else rb), (if a <? b then rb else rq). cbv zeta. rewrite R1, R2, R1', R2'. cbn [ss_pools ss_set ss_led].
    split; [auto|]. split; [auto|]. split; [reflexivity|]. split; [auto|]. split; [auto|]. split; [auto|].
    split.
    { intros E. unfold ss_mint_fee, ss_fee_on in Hf. rewrite E in Hf. cbn [Z.eqb negb] in Hf. injection Hf as <- _ _. auto. }
    split.
    { intros Hl. specialize (A2 Hl). rewrite F4 in A2. unfold at_ in A2. clear - A2. repeat case_bool_decide; subst; try tauto; lia. }
    split; [destruct (a <? b); auto|]. split; [destruct (a <? b); auto|].
    split; [destruct (a <? b); lia|]. split; [destruct (a <? b); lia|].
    split. { rewrite A11, F5, !bool_decide_true by auto. lia. }
    intros x w. rewrite A10, F4. destruct (a <? b) eqn:E.
    - replace (Z.max a b) with b by lia. replace (Z.min a b) with a by lia. lia.
    - replace (Z.max a b) with a by lia. replace (Z.min a b) with b by lia. lia.
  Qed.

  Lemma ss_create_exact s o a b amts r lp s' :
    u128_ok amts.1 -> u128_ok amts.2 -> ss_create C P s o (a, b) amts r lp = Ok s' ->
    exists p, let k := pair_key a b in
      ss_origin C o = true /\ a <> b /\ ss_pools s !! k = None /\ iss (ss_led s) lp = 0 /\
      ss_pools s' = <[k := p]> (ss_pools s) /\ p_lp p = lp /\ reserve k p a = amts.1 /\ reserve k p b = amts.2 /\
      iss (ss_led s') lp = Z.sqrt (amts.1 * amts.2) /\ ss_min_liq C <= Z.sqrt (amts.1 * amts.2) /\
      (forall x w, bal (ss_led s') x w = bal (ss_led s) x w
         + at_ lp r x w (Z.sqrt (amts.1 * amts.2) - ss_min_liq C) + at_ lp (ss_lock C) x w (ss_min_liq C)
         - at_ a r x w amts.1 + at_ a (ss_acct C) x w amts.1 - at_ b r x w amts.2 + at_ b (ss_acct C) x w amts.2).
  Proof.
    intros U1 U2 H. unfold u128_ok in *. apply ss_create_spec in H as (p & L & H). cbv zeta in H.
    destruct H as (Ho & Hne & Hn & Hi & Hadd & ->).
    unfold sorted_amounts in Hadd. destruct (if a <? b then (amts.2, amts.1) else amts) as [ib iq] eqn:Ep.
    assert (Hib : 0 <= ib /\ 0 <= iq) by (destruct (a <? b); [|rewrite (surjective_pairing amts) in Ep]; injection Ep as <- <-; lia).
    unfold pair_key in Hadd. destruct (ss_do_add_spec _ _ _ _ _ _ _ _ _ _ _ _ (proj1 Hib) (proj2 Hib) Hadd) as
      (liq & minted & locked & d0 & d1 & Al & A0 & A1 & A2 & A3 & A4 & _ & _ & _ & A5 & A6 & A7 & A13 & _ & _ & A12 & A8 & A9 & A10 & _).
    cbn [p_lp new_pool p_base p_quote] in *.
    destruct A7 as [(_ & -> & ->)|(S & _)]; [|lia]. destruct (A13 Hn) as [-> ->]. rewrite (A12 ltac:(lia)) in *. clear A12.
    assert (Hprod : ib * iq = amts.1 * amts.2).
    { destruct (a <? b); [|rewrite (surjective_pairing amts) in Ep]; injection Ep as <- <-; lia. }
    rewrite Hprod, Z.add_0_r in *. destruct (reserve_max a b p Hne) as [R1 R2].
    exists p. cbv zeta. cbn [ss_pools ss_set ss_led]. split; [auto|]. split; [auto|]. split; [auto|]. split; [auto|].
    split; [reflexivity|]. split; [auto|]. rewrite R1, R2, A9, bool_decide_true by auto.
    assert (Hamt : (if a <? b then p_quote p else p_base p) = amts.1 /\ (if a <? b then p_base p else p_quote p) = amts.2).
    { destruct (a <? b); [|rewrite (surjective_pairing amts) in Ep]; injection Ep as <- <-; lia. }
    split; [lia|]. split; [lia|]. split; [lia|]. split; [lia|].
    intros x w. rewrite A8. destruct (a <? b) eqn:E.
    - injection Ep as <- <-. replace (Z.max a b) with b by lia. replace (Z.min a b) with a by lia. lia.
    - rewrite (surjective_pairing amts) in Ep; injection Ep as <- <-.
      replace (Z.max a b) with a by lia. replace (Z.min a b) with b by lia. lia.
  Qed.

  (** ** progress of leaving *)
  Lemma ss_mint_fee_prog L p d0 d1 :
    lenient P -> 0 <= iss L (p_lp p) -> (ss_fee_on C = true -> 0 < ss_pfee C <= ss_lp_fee C /\ ss_pfee C + ss_lp_fee C <= PMILL /\
      delta C (p_base_last p) (p_quote_last p) = Ok d0 /\ delta C (p_base p) (p_quote p) = Ok d1 /\ 0 <= d0 /\
      2 * iss L (p_lp p) <= U128MAX) ->
    exists r, ss_mint_fee C P L p = Ok r.
  Proof.
    intros LP W Hon. unfold ss_mint_fee. destruct (ss_fee_on C) eqn:E; cbn [negb]; [|eauto].
    destruct (Hon eq_refl) as (HF & HS & D0 & D1 & Hd0 & HT). clear Hon.
    unfold ss_fee_on in E. rewrite D0, D1. cbn [unwrap_r rbind]. destruct (d1 <=? d0) eqn:Ed; [eauto|].
    unfold ss_fee_recip, p_checked_add. replace (ss_pfee C + ss_lp_fee C <=? PMILL) with true by lia. cbn [ok_or rbind].
    assert (R : 0 < p_from_rational (ss_pfee C) (ss_pfee C + ss_lp_fee C) /\ 2 * p_from_rational (ss_pfee C) (ss_pfee C + ss_lp_fee C) <= PMILL).
    { pose proof PMILL_pos. unfold p_from_rational. destruct (_ || _) eqn:Eo; [lia|]. split; [apply Z.div_str_pos; nia|].
      assert (2 * (ss_pfee C * PMILL / (ss_pfee C + ss_lp_fee C)) <= (2 * (ss_pfee C * PMILL)) / (ss_pfee C + ss_lp_fee C)) by (apply Z.div_mul_le; nia).
      etransitivity; [eassumption|]. apply Z.div_le_upper_bound; nia. }
    set (r := p_from_rational _ _) in *. clearbody r.
    unfold p_recip_mul_floor. replace (r =? 0) with false by lia. cbn [rbind].
    set (rc := sat128 (1 * PMILL / r)).
    assert (RC : 2 <= rc).
    { unfold rc, sat128. assert (2 <= 1 * PMILL / r) by (apply Z.div_le_lower_bound; lia). clear rc.
      assert (2 <= U128MAX) by (apply Z.leb_le; vm_compute; reflexivity). lia. }
    assert (RU : rc <= U128MAX) by (pose proof U128MAX_pos; unfold rc, sat128; lia). clearbody rc.
    unfold checked_sub. rewrite (chk_ok (rc - 1)) by lia. cbn [ok_or rbind].
    unfold checked_div. assert (DD : 0 < d1 * (rc - 1) + d0) by nia.
    replace (d1 * (rc - 1) + d0 =? 0) with false by lia. cbn [ok_or rbind].
    set (T := iss L (p_lp p)) in *. set (f := (d1 - d0) * T / (d1 * (rc - 1) + d0)).
    assert (F0 : 0 <= f <= T).
    { assert (G : d1 - d0 <= d1 * (rc - 1) + d0) by nia. split; [apply Z.div_pos; [apply Z.mul_nonneg_nonneg; lia|exact DD]|].
      apply Z.div_le_upper_bound; [exact DD|]. apply Z.mul_le_mono_nonneg_r; [exact W|exact G]. }
    rewrite (chk_ok f) by lia. cbn [ok_or rbind].
    destruct (mint_prog P L (p_lp p) (ss_receiver C) f LP) as [L' ->]; try (fold T; lia). cbn. eauto.
  Qed.

  Lemma ss_remove_prog s who a b l p d0 d1 :
    ss_cfg_ok C -> ss_inv C s -> lenient P -> ss_user C who -> a <> b -> ss_pools s !! pair_key a b = Some p ->
    0 <= l <= bal (ss_led s) (p_lp p) who ->
    (ss_pfee C <> 0 -> ss_pfee C <= ss_lp_fee C /\ ss_pfee C + ss_lp_fee C <= PMILL /\
      compute_d (p_base_last p) (p_quote_last p) (ss_amp C) = Ok d0 /\ compute_d (p_base p) (p_quote p) (ss_amp C) = Ok d1 /\
      2 * iss (ss_led s) (p_lp p) <= U128MAX) ->
    exists s', ss_remove C P s who (a, b) l = Ok s'.
  Proof.
    intros HC I LP [U1 U2] Hne Hp Hl Hon. destruct (si_pos C s I _ _ Hp) as [P1 P2]. pose proof (ss_iss_pos s _ _ HC I Hp) as IP.
    unfold ss_remove. rewrite (sort_assets_ok _ _ Hne). cbn [rbind].
    change (Z.max a b, Z.min a b) with (pair_key a b) at 1. rewrite Hp. cbn [ok_or rbind].
    destruct (ss_mint_fee_prog (ss_led s) p d0 d1 LP) as [[[f p1] L1] Hf]; [lia| |].
    { intros E. unfold ss_fee_on in E. destruct Hon as (O1 & O2 & O3 & O4 & O5); [lia|]. destruct HC as (_ & HC & _).
      split; [lia|]. split; [lia|]. split; [exact O3|]. split; [exact O4|]. split; [|lia]. clear - O3.
      unfold compute_d in O3. destruct (_ =? 0) eqn:Es; [injection O3 as <-; lia|]. destruct (Z.le_gt_cases 0 d0) as [|N]; [auto|exfalso].
      assert (G : forall n e, d_loop n (p_base_last p) (p_quote_last p) (ss_amp C * 2 * 2) (p_base_last p + p_quote_last p) e = Ok d0 -> 0 <= d0).
      { clear O3 N. induction n as [|n IH]; intros e He; cbn [d_loop] in He; [discriminate He|]. bstep He d' Ed. destruct (close d' e).
        - ok_simpl He. apply chk_some in He. lia.
        - eauto. }
      apply G in O3. lia. }
    rewrite Hf. cbn [rbind]. destruct (ss_mint_fee_spec _ _ _ _ _ _ _ Hf) as (F0 & F1 & F2 & F3 & _ & _ & _ & F4 & F5 & F6).
    unfold ss_do_remove, calculate_reserves_to_remove. rewrite F3, F1, F2.
    pose proof (F6 (si_wf C s I)) as W. pose proof (bal_le_iss L1 (p_lp p) who W) as BL.
    rewrite F5, bool_decide_true in * by auto. set (T := iss (ss_led s) (p_lp p) + f) in *.
    assert (BW : bal (ss_led s) (p_lp p) who <= bal L1 (p_lp p) who) by (rewrite F4; unfold at_; case_bool_decide; lia).
    assert (T0 : 0 < T) by lia. unfold checked_div. replace (T =? 0) with false by lia. cbn [ok_or rbind].
    assert (XB : 0 <= l * p_base p / T <= p_base p) by (split; [apply Z.div_pos; nia|apply Z.div_le_upper_bound; nia]).
    assert (XQ : 0 <= l * p_quote p / T <= p_quote p) by (split; [apply Z.div_pos; nia|apply Z.div_le_upper_bound; nia]).
    set (xb := l * p_base p / T) in *. set (xq := l * p_quote p / T) in *. clearbody xb xq.
    rewrite (chk_ok xb) by lia. cbn [ok_or rbind]. rewrite (chk_ok xq) by lia. cbn [ok_or rbind].
    unfold checked_sub. rewrite (chk_ok (p_base p - xb)) by lia. cbn [ok_or rbind].
    rewrite (chk_ok (p_quote p - xq)) by lia. cbn [ok_or rbind].
    destruct (burn_prog P L1 (p_lp p) who l LP) as [L2 E2]; try lia. rewrite E2. cbn [rbind].
    apply burn_spec in E2 as (_ & _ & B2 & _).
    pose proof (ss_reserve_le_bal s _ p (Z.max a b) I Hp) as RB. pose proof (ss_reserve_le_bal s _ p (Z.min a b) I Hp) as RQ.
    unfold reserve, pair_key in RB, RQ. cbn in RB, RQ.
    rewrite bool_decide_true, bool_decide_false in RB by lia. rewrite bool_decide_false, bool_decide_true in RQ by lia.
    assert (A : forall x, bal (ss_led s) x (ss_acct C) <= bal L2 x (ss_acct C)).
    { intros x. rewrite B2, F4. rewrite (at_other _ who) by auto. pose proof (at_nonneg (p_lp p) (ss_receiver C) x (ss_acct C) f F0). lia. }
    destruct (transfer_prog P L2 (Z.max a b) (ss_acct C) who xb false LP) as [L3 E3]; [lia|specialize (A (Z.max a b)); lia|].
    rewrite E3. cbn [rbind]. apply transfer_spec in E3 as (B3 & _).
    destruct (transfer_prog P L3 (Z.min a b) (ss_acct C) who xq false LP) as [L4 E4]; [lia| |].
    { rewrite B3. unfold at_. rewrite !bool_decide_false by (intros [? ?]; first [lia|congruence]). specialize (A (Z.min a b)). lia. }
    rewrite E4. cbn [rbind]. eauto.
  Qed.

  (** the pool is worth nothing to the pallet once D overflows: nobody can add *)
  Lemma ss_add_stuck s who a b desired minimum p :
    ss_cfg_ok C -> ss_inv C s -> ss_user C who -> u128_ok desired.1 -> u128_ok desired.2 -> 1 <= ss_amp C ->
    ss_pools s !! pair_key a b = Some p ->
    U128MAX < 4 * ss_amp C * (p_base p + p_quote p) * (p_base p + p_quote p) ->
    forall s', ss_add C P s who (a, b) desired minimum <> Ok s'.
  Proof.
    intros HC I U H1 H2 HA Hp HB s' H. destruct (ss_add_exact _ _ _ _ _ _ _ HC I U H1 H2 H) as (p0 & p' & ta & tb & fee & d0 & d1 & m & X).
    cbv zeta in X. destruct X as (_ & X1 & _ & _ & _ & _ & _ & _ & _ & _ & X2 & _ & X3 & _).
    rewrite Hp in X1. injection X1 as <-. destruct (si_pos C s I _ _ Hp) as [P1 P2]. destruct HC as (_ & _ & _ & HC & _).
    rewrite compute_d_overflow in X2 by lia. injection X2 as <-. lia.
  Qed.

  (** and every trade drains exactly the reserve of the asset paid in *)
  Lemma ss_swap_overflow now s who ai ao amt out s' p :
    ss_cfg_ok C -> ss_inv C s -> 1 <= ss_amp C -> 0 <= amt -> ss_pools s !! pair_key ai ao = Some p ->
    U128MAX < 4 * ss_amp C * (p_base p + p_quote p) * (p_base p + p_quote p) ->
    ss_swap C P now s who (ai, ao) amt = Ok (out, s') -> out = reserve (pair_key ai ao) p ai.
  Proof.
    intros HC I HA Ham Hp HB H. apply ss_swap_spec in H as (p0 & p1 & p2 & L1 & L2 & H). cbv zeta in H.
    destruct H as (Hne & Hp0 & _ & _ & H & _). rewrite Hp in Hp0. injection Hp0 as <-.
    destruct (si_pos C s I _ _ Hp) as [P1 P2]. destruct (reserve_max ai ao p Hne) as [R1 R2].
    destruct HC as (C1 & C2 & _ & HC & _).
    unfold ss_amount_out in H. bstep H r Er. bstep H ain Ea. bstep H d Ed. bstep H nq En. bstep H nb Eb.
    assert (Hs : reserve (pair_key ai ao) p ai + reserve (pair_key ai ao) p ao = p_base p + p_quote p) by (rewrite R1, R2; destruct (_ <? _); lia).
    unfold delta in Ed. rewrite compute_d_overflow in Ed; [|lia|rewrite R1; destruct (_ <? _); lia|rewrite R2; destruct (_ <? _); lia|].
    2:{ rewrite Hs. exact HB. }
    injection Ed as <-. rewrite compute_base_zero in Eb; [|lia].
    injection Eb as <-. apply ok_or_ok in H. unfold checked_sub in H. apply chk_some in H. lia.
  Qed.

  (** a single-hop quote is what the trade pays *)
  Lemma ss_quote_is_swap now s who ai ao amt out s' :
    ss_swap C P now s who (ai, ao) amt = Ok (out, s') -> ss_amounts_out C (ss_pools s) amt [ai; ao] = Ok [amt; out].
  Proof.
    intros H. apply ss_swap_spec in H as (p0 & p1 & p2 & L1 & L2 & H). cbv zeta in H.
    destruct H as (Hne & Hp0 & _ & _ & H & _). cbn [ss_amounts_out]. rewrite (ss_get_reserves s ai ao p0 Hne Hp0). cbn [rbind].
    rewrite H. reflexivity.
  Qed.

  (** the price of a trade *)
  Lemma ss_amount_out_price amt x y d out :
    1 <= ss_amp C -> 0 <= amt -> 0 <= ss_lp_fee C -> 0 <= ss_pfee C -> 0 < y ->
    compute_d x y (ss_amp C) = Ok d -> 24 * ss_amp C <= d -> d * d * d <= 4 * U128MAX ->
    ss_amount_out C amt x y = Ok out -> out < x ->
    let net := amt - (ss_lp_fee C + ss_pfee C) * amt / PMILL in
    d <= 2 * (y + net) ->
    0 <= net /\ curve_gap (ss_amp C) (y + net) (x - out + 4) d <= 0 <= curve_gap (ss_amp C) (y + net) (x - out - 3) d.
  Proof.
    intros HA Ham HL HF Hy Hd H24 HO H Ho net HX. unfold ss_amount_out in H.
    bstep H r Er. unfold p_checked_add in Er. destruct (_ <=? PMILL) eqn:El; [|discriminate Er]. injection Er as <-.
    bstep H ain Ea. bstep H d' Ed. unfold delta in Ed. rewrite Hd in Ed. injection Ed as <-. bstep H nq En. bstep H nb Eb.
    destruct Ea as [-> Ea]. destruct En as [-> En]. apply ok_or_ok in H. unfold checked_sub in H. apply chk_some in H. destruct H as [-> H].
    unfold p_mul_floor in *. fold net in Ea, En, Eb. split; [lia|].
    replace (x - (x - nb) + 4) with (nb + 4) by lia. replace (x - (x - nb) - 3) with (nb - 3) by lia.
    apply compute_base_accurate; auto; lia.
  Qed.
End ex.

(** pools never disappear and keep their LP token *)
Lemma ss_do_add_lp C P ps L who p ideal assets p' L' : ss_do_add C P ps L who p ideal assets = Ok (p', L') -> p_lp p' = p_lp p.
Proof.
  destruct ideal as [ib iq], assets as [ba qa]. intros H. unfold ss_do_add in H.
  bstep H d0 E0. bstep H x E1. destruct x as [lq L1]. bstep H nb E2. bstep H nq E3. bstep H d1 E4. bstep H l2 E5.
  bstep H L2 E6. bstep H L3 E7. bstep H L4 E8. injection H as <- <-. destruct (ss_fee_on C); reflexivity.
Qed.
Lemma ss_insert_lp (ps : gmap (Z * Z) pool) k0 p0 p1 k p :
  ps !! k0 = Some p0 -> p_lp p1 = p_lp p0 -> ps !! k = Some p -> exists p', <[k0 := p1]> ps !! k = Some p' /\ p_lp p' = p_lp p.
Proof.
  intros H0 H1 H. destruct (decide (k0 = k)) as [->|N].
  - rewrite lookup_insert. exists p1. split; [auto|]. rewrite H0 in H. injection H as <-. auto.
  - rewrite lookup_insert_ne by auto. eauto.
Qed.
Lemma ss_step_pools C P s o s' k p :
  ss_step C P s o = Ok s' -> ss_pools s !! k = Some p -> exists p', ss_pools s' !! k = Some p' /\ p_lp p' = p_lp p.
Proof.
  intros H Hp. destruct o as [who pr d m|who pr l|o pr am r lp|now who pr amt|a f t amt|a w amt|a w amt]; cbn [ss_step] in H.
  - unfold ss_add in H. bstep H x E. destruct x as [[inv ba] qa].
    destruct (if inv then _ else _) as [x1 x2] in H. destruct (if inv then _ else _) as [x3 x4] in H.
    bstep H p0 E0. bstep H x5 E5. destruct x5 as [ib iq]. bstep H u1 Eu1. bstep H u2 Eu2. bstep H x6 E6. destruct x6 as [[f p1] L1].
    bstep H x7 E7. destruct x7 as [p2 L2]. injection H as <-. cbn [ss_pools ss_set].
    apply ss_do_add_lp in E7. apply ss_mint_fee_spec in E6 as (_ & _ & _ & E6 & _).
    apply (ss_insert_lp _ _ p0); auto. congruence.
  - unfold ss_remove in H. bstep H x E. destruct x as [[inv ba] qa]. bstep H p0 E0. bstep H x6 E6. destruct x6 as [[f p1] L1].
    bstep H x7 E7. destruct x7 as [[[b q] p2] L2]. injection H as <-. cbn [ss_pools ss_set].
    apply ss_do_remove_spec in E7. cbv zeta in E7. destruct E7 as (_ & _ & _ & _ & _ & _ & _ & _ & _ & E7 & _).
    apply ss_mint_fee_spec in E6 as (_ & _ & _ & E6 & _). apply (ss_insert_lp _ _ p0); auto. congruence.
  - destruct pr as [a b]. apply ss_create_spec in H as (p0 & L & H). cbv zeta in H. destruct H as (_ & _ & Hn & _ & _ & ->).
    cbn [ss_pools ss_set]. exists p. split; [|auto]. rewrite lookup_insert_ne; auto. intros E. rewrite E in Hn. congruence.
  - bstep H x E. destruct x as [out s1]. injection H as <-. destruct pr as [ai ao].
    apply ss_swap_spec in E as (p0 & p1 & p2 & L1 & L2 & E). cbv zeta in E. destruct E as (_ & Hp0 & -> & _ & _ & _ & _ & _ & _ & _ & E & _).
    cbn [ss_pools ss_set]. apply (ss_insert_lp _ _ p0); auto.
  - bstep H L E. injection H as <-. eauto.
  - bstep H L E. injection H as <-. eauto.
  - bstep H L E. injection H as <-. eauto.
Qed.
