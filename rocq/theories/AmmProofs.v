From Verif Require Import Base MapSum Ledger AmmModel AmmSpec.

Lemma sort_assets_spec a b i x y :
  sort_assets (a, b) = Ok (i, x, y) -> a <> b /\ (x, y) = pair_key a b /\ i = (a <? b).
Proof.
  unfold sort_assets, pair_key. destruct (b <? a) eqn:E1; [|destruct (a <? b) eqn:E2]; intros [= <- <- <-];
    (split; [lia|split; [f_equal; lia|lia]]).
Qed.
Lemma sort_assets_ok a b : a <> b -> sort_assets (a, b) = Ok (a <? b, Z.max a b, Z.min a b).
Proof.
  intros. unfold sort_assets. destruct (b <? a) eqn:E1; [|destruct (a <? b) eqn:E2]; try lia;
    repeat f_equal; lia.
Qed.

Lemma pair_key_comm a b : pair_key a b = pair_key b a.
Proof. unfold pair_key. f_equal; lia. Qed.

Lemma p_mul_ceil_bounds p x : 0 <= p <= PMILL -> 0 <= x -> 0 <= p_mul_ceil p x <= x.
Proof.
  intros. unfold p_mul_ceil. pose proof PMILL_pos.
  pose proof (cdiv_ge (p * x) PMILL ltac:(lia)). pose proof (cdiv_lt (p * x) PMILL ltac:(lia)). nia.
Qed.

Section proofs.
  Context (C : amm_cfg) (P : policy).

  Definition net_in (x : Z) : Z := x - p_mul_ceil (lp_fee C) x.

  Lemma net_in_bounds x : cfg_ok C -> 0 <= x -> 0 <= net_in x <= x.
  Proof. intros (H&_&_) ?. pose proof (p_mul_ceil_bounds _ x H). unfold net_in. lia. Qed.

  (* net = floor(x * (1e6 - fee) / 1e6) *)
  Lemma net_in_floor x : net_in x = (x * (PMILL - lp_fee C)) / PMILL.
  Proof.
    unfold net_in, p_mul_ceil, cdiv. pose proof PMILL_pos.
    assert (x * (PMILL - lp_fee C) = x * PMILL - lp_fee C * x) as -> by lia.
    set (y := lp_fee C * x).
    apply (Z.div_unique_pos _ _ _ (PMILL * ((y + PMILL - 1) / PMILL) - y)).
    - pose proof (div_gt_mul (y + PMILL - 1) PMILL). pose proof (div_le_mul (y + PMILL - 1) PMILL). lia.
    - lia.
  Qed.

  Lemma get_amount_out_spec ain ri ro out :
    get_amount_out C ain ri ro = Ok out ->
    ri + net_in ain <> 0 /\ out = net_in ain * ro / (ri + net_in ain) /\ 0 <= out <= U128MAX.
  Proof.
    unfold get_amount_out. intros H. bstep H x E. destruct E as [-> E].
    fold (net_in ain) in *. bstep H y E2. destruct E2 as [-> E2].
    ok_simpl H. apply chk_some in H. destruct H as [-> H]. auto.
  Qed.

  Lemma get_amount_out_bounds ain ri ro out :
    cfg_ok C -> 0 <= ain -> 0 <= ri -> 0 <= ro ->
    get_amount_out C ain ri ro = Ok out ->
    0 <= out <= ro /\ out * (ri + net_in ain) <= net_in ain * ro /\ 0 <= net_in ain <= ain /\ 0 < ri + net_in ain.
  Proof.
    intros HC Ha Hri Hro H. apply get_amount_out_spec in H. destruct H as (G1 & -> & G2).
    pose proof (net_in_bounds ain HC ltac:(lia)).
    set (n := net_in ain) in *. assert (0 < ri + n) by lia.
    pose proof (div_le_mul (n * ro) (ri + n)). 
    assert (n * ro / (ri + n) <= ro). { apply Z.div_le_upper_bound; nia. }
    repeat split; try lia; nia.
  Qed.

  Lemma get_amount_out_k ain ri ro out :
    cfg_ok C -> 0 <= ain -> 0 <= ri -> 0 <= ro ->
    get_amount_out C ain ri ro = Ok out -> ri * ro <= (ri + ain) * (ro - out).
  Proof.
    intros HC Ha Hri Hro H. destruct (get_amount_out_bounds ain ri ro out HC ltac:(lia) ltac:(lia) ltac:(lia) H) as (G1&G2&G3&G4).
    set (n := net_in ain) in *. nia.
  Qed.

  Lemma get_amount_out_lt ain ri ro out :
    cfg_ok C -> 0 <= ain -> 0 < ri -> 0 < ro ->
    get_amount_out C ain ri ro = Ok out -> out < ro.
  Proof.
    intros HC Ha Hri Hro H. destruct (get_amount_out_bounds ain ri ro out HC ltac:(lia) ltac:(lia) ltac:(lia) H) as (G1&G2&G3&G4).
    set (n := net_in ain) in *. nia.
  Qed.

  Lemma do_update_oracle_spec now p p' :
    do_update_oracle now p = Ok p' ->
    p' = set_oracle p (p_ts p') (p_price0 p') (p_price1 p') /\
    (p_ts p = now -> p' = p) /\
    (p_ts p <> now ->
       p_ts p' = now /\ p_base p <> 0 /\ p_quote p <> 0 /\
       p_price0 p' = p_price0 p + sat128 (Z.max 0 (now - p_ts p) * p_quote p * FDIV / p_base p) /\
       p_price1 p' = p_price1 p + sat128 (Z.max 0 (now - p_ts p) * p_base p * FDIV / p_quote p)).
  Proof.
    unfold do_update_oracle. destruct (p_ts p =? now) eqn:E.
    { intros [= <-]. destruct p; cbn in *. split; auto. split; auto. lia. }
    intros H. bstep H n0 E0. apply chk_some in E0. destruct E0 as [-> E0].
    unfold f_saturating_from_rational in H.
    destruct (p_base p =? 0) eqn:Eb; [discriminate H|]. cbn [rbind] in H.
    bstep H n1 E1. apply chk_some in E1. destruct E1 as [-> E1].
    destruct (p_quote p =? 0) eqn:Eq; [discriminate H|]. cbn [rbind] in H.
    bstep H c0 E2. bstep H c1 E3. injection H as <-. cbn.
    destruct E2 as [-> ?], E3 as [-> ?]. unfold saturating_sub in *.
    split; auto. split; [lia|]. intros _. repeat split; lia.
  Qed.

  Lemma reserve_in_out (inv : bool) ai ao p :
    ai <> ao -> inv = (ai <? ao) ->
    (if inv then (p_quote p, p_base p) else (p_base p, p_quote p)) =
    (reserve (pair_key ai ao) p ai, reserve (pair_key ai ao) p ao).
  Proof.
    intros Hne ->. unfold reserve, pair_key; cbn.
    destruct (ai <? ao) eqn:E; f_equal; repeat case_bool_decide; lia.
  Qed.

  Lemma reserve_set_swap (inv : bool) ai ao p x y :
    ai <> ao -> inv = (ai <? ao) ->
    let p' := if inv then set_reserves p y x else set_reserves p x y in
    (forall a, reserve (pair_key ai ao) p' a = (if bool_decide (a = ai) then x else 0) + (if bool_decide (a = ao) then y else 0)).
  Proof.
    intros Hne ->. unfold reserve, pair_key; cbn.
    destruct (ai <? ao) eqn:E; cbn; intros; repeat case_bool_decide; lia.
  Qed.

  Lemma reserve_set_oracle k p t a b x : reserve k (set_oracle p t a b) x = reserve k p x.
  Proof. reflexivity. Qed.

  Lemma reserve_other ai ao p a : a <> ai -> a <> ao -> reserve (pair_key ai ao) p a = 0.
  Proof. unfold reserve, pair_key; cbn. intros; repeat case_bool_decide; lia. Qed.

  Lemma do_swap_spec now s who ai ao amt out s' :
    do_swap C P now s who (ai, ao) amt = Ok (out, s') ->
    exists p p1 p2 L1 L2,
      let k := pair_key ai ao in
      ai <> ao /\ pools s !! k = Some p /\ s' = set_pool s k p2 L2 /\
      reserve k p ao <> 0 /\
      get_amount_out C amt (reserve k p ai) (reserve k p ao) = Ok out /\
      p1 = (if ai <? ao then set_reserves p (reserve k p ao - out) (reserve k p ai + amt)
            else set_reserves p (reserve k p ai + amt) (reserve k p ao - out)) /\
      do_update_oracle now p1 = Ok p2 /\
      (forall a, reserve k p2 a = reserve k p a + (if bool_decide (a = ai) then amt else 0)
                                   - (if bool_decide (a = ao) then out else 0)) /\
      transfer P (led s) ai who (amm_acct C) amt (ka C ai) = Ok L1 /\
      transfer P L1 ao (amm_acct C) who out (ka C ao) = Ok L2 /\
      p_lp p2 = p_lp p /\ 0 <= reserve k p ao - out /\
      lp_fee C <> 0 /\ sat128 (cdiv PMILL (lp_fee C)) <= amt /\
      0 <= reserve k p ai + amt <= U128MAX.
  Proof.
    unfold do_swap. intros H. bstep H x E. destruct x as [[inv ba] qa].
    apply sort_assets_spec in E. destruct E as (Hne & Hk & Hinv). bstep H p Ep. rewrite Hk in *.
    rewrite (reserve_in_out inv ai ao p Hne Hinv) in H.
    unfold p_recip_mul_ceil in H. destruct (lp_fee C =? 0) eqn:Ef; [discriminate H|]. cbn [rbind] in H.
    bstep H u Eu. bstep H u2 Eu2. bstep H o Eo. bstep H ni Eni. bstep H no Eno.
    destruct Eni as [-> Eni], Eno as [-> Eno].
    bstep H p2 Ep2. bstep H L1 EL1. bstep H L2 EL2. injection H as <- <-.
    exists p, (if ai <? ao then set_reserves p (reserve (pair_key ai ao) p ao - o) (reserve (pair_key ai ao) p ai + amt)
            else set_reserves p (reserve (pair_key ai ao) p ai + amt) (reserve (pair_key ai ao) p ao - o)), p2, L1, L2.
    cbn. rewrite <- Hinv.
    pose proof (do_update_oracle_spec _ _ _ Ep2) as (S1 & _ & _).
    repeat (split; [first [assumption | reflexivity | lia]|]).
    split.
    { intros a. rewrite S1, reserve_set_oracle. rewrite (reserve_set_swap inv ai ao p _ _ Hne Hinv a).
      repeat case_bool_decide; subst; try lia. rewrite reserve_other; auto. }
    rewrite Z.mul_1_l in Eu.
    repeat (split; [first [assumption | reflexivity | lia]|]).
    split.
    { rewrite S1. cbn. destruct inv; reflexivity. }
    repeat split; lia.
  Qed.

  (** C01 *)
  Lemma kprod_reserve ai ao p : ai <> ao -> kprod p = reserve (pair_key ai ao) p ai * reserve (pair_key ai ao) p ao.
  Proof. intros. unfold kprod, reserve, pair_key; cbn. repeat case_bool_decide; lia. Qed.

  Lemma reserve_nonneg k p a : 0 <= p_base p -> 0 <= p_quote p -> 0 <= reserve k p a.
  Proof. intros. unfold reserve. repeat case_bool_decide; lia. Qed.

  Lemma swap_full now s who ai ao amt out s' :
    cfg_ok C -> reserves_nonneg s -> 0 <= amt -> who <> amm_acct C ->
    do_swap C P now s who (ai, ao) amt = Ok (out, s') ->
    exists p p',
      let k := pair_key ai ao in
      pools s !! k = Some p /\ pools s' = <[k := p']> (pools s) /\
      kprod p <= kprod p' /\
      (forall a, reserve k p' a = reserve k p a + (if bool_decide (a = ai) then amt else 0)
                                   - (if bool_decide (a = ao) then out else 0)) /\
      (forall a w, bal (led s') a w =
         bal (led s) a w - at_ ai who a w amt + at_ ai (amm_acct C) a w amt
                         - at_ ao (amm_acct C) a w out + at_ ao who a w out) /\
      (forall a, iss (led s') a = iss (led s) a) /\
      pfee s' = pfee s /\ preceiver s' = preceiver s /\ p_lp p' = p_lp p.
  Proof.
    intros HC Hnn Hamt Hwho H. apply do_swap_spec in H.
    destruct H as (p & p1 & p2 & L1 & L2 & Hne & Hp & -> & Hro & Hout & Hp1 & Hor & Hres & HL1 & HL2 & Hlp & Hge & Hf & Hmin & Hov).
    exists p, p2. cbn. specialize (Hnn _ _ Hp) as [Hb Hq].
    pose proof (reserve_nonneg (pair_key ai ao) p ai Hb Hq) as N1.
    pose proof (reserve_nonneg (pair_key ai ao) p ao Hb Hq) as N2.
    apply transfer_spec in HL1, HL2. destruct HL1 as (B1 & I1 & _), HL2 as (B2 & I2 & _).
    repeat (split; [first [assumption | reflexivity]|]). split.
    { rewrite !(kprod_reserve ai ao _ Hne), !Hres.
      pose proof (get_amount_out_k _ _ _ _ HC Hamt N1 N2 Hout) as Hk. repeat case_bool_decide; try congruence; lia. }
    split; [auto|]. split.
    { intros a w. rewrite B2, B1. lia. }
    split; [intros a; rewrite I2, I1; auto|]. auto.
  Qed.

  (** C02 *)
  Lemma round_trip now1 now2 s who ai ao amt out s1 back s2 :
    cfg_ok C -> reserves_nonneg s -> 0 <= amt -> 
    do_swap C P now1 s who (ai, ao) amt = Ok (out, s1) ->
    do_swap C P now2 s1 who (ao, ai) out = Ok (back, s2) -> back <= amt.
  Proof.
    intros HC Hnn Hamt H1 H2. apply do_swap_spec in H1, H2.
    destruct H1 as (p & p1 & p2 & L1 & L2 & Hne & Hp & -> & Hro & Hout & Hp1 & Hor & Hres & HL1 & HL2 & Hlp & Hge & Hf & Hmin & Hov).
    destruct H2 as (r & r1 & r2 & M1 & M2 & _ & Hr & -> & _ & Hback & _ & _ & _ & _ & _ & _ & Hge' & _ & _ & _).
    cbn in Hr. rewrite (pair_key_comm ao ai) in *. rewrite lookup_insert in Hr. injection Hr as <-.
    rewrite !Hres in *. repeat case_bool_decide; try congruence.
    specialize (Hnn _ _ Hp) as [Hb Hq].
    pose proof (reserve_nonneg (pair_key ai ao) p ai Hb Hq) as N1.
    pose proof (reserve_nonneg (pair_key ai ao) p ao Hb Hq) as N2.
    set (x := reserve (pair_key ai ao) p ai) in *. set (y := reserve (pair_key ai ao) p ao) in *.
    pose proof (get_amount_out_bounds _ _ _ _ HC Hamt N1 N2 Hout) as (G1 & _).
    pose proof (get_amount_out_k _ _ _ _ HC Hamt N1 N2 Hout) as K1.
    pose proof (get_amount_out_k out (y - out) (x + amt) back HC ltac:(lia) ltac:(lia) ltac:(lia) ltac:(rewrite <- Hback; f_equal; lia)) as K2.
    nia.
  Qed.
End proofs.
