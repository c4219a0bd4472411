From Verif Require Import Base MapSum Ledger AmmModel AmmSpec AmmProofs AmmInv AmmProofs2 AmmProofs3.

Section p4.
  Context (C : amm_cfg) (P : policy).

  (** C06 *)
  Lemma remove_liquidity_full s who a b l s' :
    remove_liquidity C P s who (a, b) l = Ok s' -> user C who ->
    exists p p' xa xb fee recv,
      let k := pair_key a b in let lp := p_lp p in
      a <> b /\ pools s !! k = Some p /\ pools s' = <[k := p']> (pools s) /\
      xa = l * reserve k p a / (iss (led s) lp + fee) /\
      xb = l * reserve k p b / (iss (led s) lp + fee) /\
      iss (led s) lp + fee <> 0 /\ 0 <= l /\
      reserve k p' a = reserve k p a - xa /\ reserve k p' b = reserve k p b - xb /\
      0 <= fee /\ (protocol_fee_on s = false -> fee = 0) /\
      iss (led s') lp = iss (led s) lp + fee - l /\
      (forall x w, bal (led s') x w = bal (led s) x w + at_ lp recv x w fee - at_ lp who x w l
           + at_ a who x w xa + at_ b who x w xb - at_ a (amm_acct C) x w xa - at_ b (amm_acct C) x w xb).
  Proof.
    intros H [Hu1 Hu2]. apply remove_liquidity_spec in H.
    destruct H as (p & p1 & L1 & p2 & L2 & f & rb & rq & Hne & Hp & Hf & Hrem & ->).
    destruct (mint_fee_spec _ _ _ _ _ _ Hf) as (recv & F0 & F1 & F2 & F3 & _ & _ & _ & F4 & F5 & F6 & F7).
    unfold pair_key in Hrem. apply remove_liq_spec in Hrem. cbn zeta in Hrem.
    destruct Hrem as (A0 & A1 & A2 & A3 & A4 & A5 & A6 & A7 & A8 & A9 & _ & _ & _ & A10 & A11 & A12 & _).
    exists p, p2, (if a <? b then rq else rb), (if a <? b then rb else rq), f, recv. cbv zeta.
    rewrite F1, F2, F3 in *. rewrite F5 in A0, A3, A4. rewrite bool_decide_true in A0, A3, A4 by auto.
    assert (Hfee : protocol_fee_on s = false -> f = 0) by (intros Hoff; apply F7; auto).
    assert (Hi : iss (led (set_pool s (pair_key a b) p2 L2)) (p_lp p) = iss (led s) (p_lp p) + f - l).
    { cbn. rewrite A11, F5, !bool_decide_true; auto. }
    repeat (split; [solve [auto]|]).
    unfold reserve, pair_key; cbn [fst snd]. rewrite A7, A8.
    destruct (a <? b) eqn:Eab.
    - rewrite (Z.max_r a b), (Z.min_l a b) in * by lia.
      rewrite !(bool_decide_false (a = b)), !(bool_decide_false (b = a)), !bool_decide_true by lia.
      rewrite ?Z.add_0_l, ?Z.add_0_r.
      repeat (split; [solve [auto; lia]|]).
      intros x w. cbn [led set_pool]. rewrite A10, F4. lia.
    - rewrite (Z.max_l a b), (Z.min_r a b) in * by lia.
      rewrite !(bool_decide_false (a = b)), !(bool_decide_false (b = a)), !bool_decide_true by lia.
      rewrite ?Z.add_0_l, ?Z.add_0_r.
      repeat (split; [solve [auto; lia]|]).
      intros x w. cbn [led set_pool]. rewrite A10, F4. lia.
  Qed.

  (** C08 *)
  Lemma sort_assets_swap a b : a <> b ->
    exists i x y, sort_assets (a, b) = Ok (i, x, y) /\ sort_assets (b, a) = Ok (negb i, x, y).
  Proof.
    intros H. rewrite !sort_assets_ok by auto. exists (a <? b), (Z.max a b), (Z.min a b). split; auto.
    rewrite Z.max_comm, Z.min_comm. repeat f_equal. lia.
  Qed.

  Lemma get_reserves_sym ps a b x y : get_reserves ps a b = Ok (x, y) -> get_reserves ps b a = Ok (y, x).
  Proof.
    intros H. unfold get_reserves in *. destruct (decide (a = b)) as [->|Hne].
    - unfold sort_assets in H. rewrite Z.ltb_irrefl in H. discriminate.
    - destruct (sort_assets_swap a b Hne) as (i & u & v & E1 & E2). rewrite E1 in H. rewrite E2. cbn in *.
      bstep H p Ep. rewrite Ep. cbn. destruct i; cbn in *; congruence.
  Qed.

  Lemma add_liquidity_sym s who a b d1 d2 m1 m2 :
    add_liquidity C P s who (b, a) (d2, d1) (m2, m1) = add_liquidity C P s who (a, b) (d1, d2) (m1, m2).
  Proof.
    unfold add_liquidity. destruct (decide (a = b)) as [->|Hne].
    - unfold sort_assets. rewrite Z.ltb_irrefl. reflexivity.
    - destruct (sort_assets_swap a b Hne) as (i & u & v & E1 & E2). rewrite E1, E2. cbn. destruct i; reflexivity.
  Qed.

  Lemma remove_liquidity_sym s who a b l :
    remove_liquidity C P s who (b, a) l = remove_liquidity C P s who (a, b) l.
  Proof.
    unfold remove_liquidity. destruct (decide (a = b)) as [->|Hne]; auto.
    destruct (sort_assets_swap a b Hne) as (i & u & v & E1 & E2). rewrite E1, E2. reflexivity.
  Qed.

  Lemma create_pool_sym s o a b d1 d2 r lp :
    create_pool C P s o (b, a) (d2, d1) r lp = create_pool C P s o (a, b) (d1, d2) r lp.
  Proof.
    unfold create_pool. destruct (decide (a = b)) as [->|Hne].
    - unfold sort_assets. rewrite Z.ltb_irrefl. reflexivity.
    - destruct (sort_assets_swap a b Hne) as (i & u & v & E1 & E2). rewrite E1, E2. cbn. destruct i; reflexivity.
  Qed.

  Lemma create_pool_fresh s o a b amts r lp s' :
    create_pool C P s o (a, b) amts r lp = Ok s' ->
    create_origin C o = true /\ a <> b /\ pools s !! pair_key a b = None /\ iss (led s) lp = 0 /\
    (exists p, pools s' = <[pair_key a b := p]> (pools s) /\ p_lp p = lp).
  Proof.
    intros H. apply create_pool_spec in H. destruct H as (p & L & H1 & H2 & H3 & H4 & H5 & ->).
    repeat split; auto. exists p. split; auto. unfold do_add_liquidity in H5.
    destruct (if a <? b then _ else _) as [ib iq]. unfold pair_key in H5. bstep H5 x E. destruct x.
    bstep H5 nb Enb. bstep H5 nq Enq. bstep H5 L2 E2. bstep H5 L3 E3. bstep H5 L4 E4. injection H5 as <- _.
    destruct (protocol_fee_on s); reflexivity.
  Qed.

  Lemma identical_rejected a now s who d m l amt o r lp :
    is_ok (add_liquidity C P s who (a, a) d m) = false /\ is_ok (remove_liquidity C P s who (a, a) l) = false /\
    is_ok (do_swap C P now s who (a, a) amt) = false /\ is_ok (create_pool C P s o (a, a) d r lp) = false.
  Proof.
    unfold add_liquidity, remove_liquidity, do_swap, create_pool, sort_assets. rewrite Z.ltb_irrefl.
    cbn. repeat split; auto. destruct (create_origin C o); reflexivity.
  Qed.

  (** C07: no operation ever removes a pool or changes its LP token *)
  Lemma step_keeps_pool s o s' k p :
    amm_inv C s -> amm_op_ok C s o -> amm_step C P s o = Ok s' -> pools s !! k = Some p ->
    exists p', pools s' !! k = Some p' /\ p_lp p' = p_lp p.
  Proof.
    assert (Hset : forall k' q q' L, pools s !! k' = Some q -> p_lp q' = p_lp q -> pools s !! k = Some p ->
      exists p', pools (set_pool s k' q' L) !! k = Some p' /\ p_lp p' = p_lp p).
    { intros k' q q' L Hq Hlp Hk. cbn. destruct (decide (k' = k)) as [->|Hne].
      - rewrite lookup_insert. exists q'. split; auto. congruence.
      - rewrite lookup_insert_ne by auto. eauto. }
    intros I Hop H Hk. destruct o; cbn in Hop, H.
    - destruct pair as [a1 b1]. destruct Hop as (_ & [Hd1 _] & [Hd2 _]).
      apply add_liquidity_spec in H; auto; [|apply (inv_nonneg C); auto].
      destruct H as (q & p1 & L1 & p2 & L2 & ib & iq & f & Hne & Hp & Hid & Hib & Hiq & _ & _ & Hf & Hadd & ->).
      destruct (mint_fee_spec _ _ _ _ _ _ Hf) as (recv & F0 & F1 & F2 & F3 & _).
      unfold pair_key in Hadd.
      destruct (add_liq_spec _ _ _ _ _ _ _ _ _ _ _ (proj1 Hib) (proj1 Hiq) Hadd) as (liq & locked & A0 & A1 & A2 & A3 & A4 & _).
      eapply Hset; eauto. congruence.
    - destruct pair as [a1 b1]. apply remove_liquidity_spec in H.
      destruct H as (q & p1 & L1 & p2 & L2 & f & rb & rq & Hne & Hp & Hf & Hrem & ->).
      destruct (mint_fee_spec _ _ _ _ _ _ Hf) as (recv & F0 & F1 & F2 & F3 & _).
      unfold pair_key in Hrem. apply remove_liq_spec in Hrem. cbn zeta in Hrem.
      destruct Hrem as (_ & _ & _ & _ & _ & _ & _ & _ & _ & A9 & _).
      eapply Hset; eauto. congruence.
    - destruct pair as [a1 b1]. apply create_pool_spec in H. destruct H as (q & L & _ & Hne & Hnone & _ & _ & ->).
      cbn. destruct (decide (pair_key a1 b1 = k)) as [<-|Hk']; [congruence|]. rewrite lookup_insert_ne by auto. eauto.
    - bstep H x E. destruct x. injection H as <-. destruct pair as [a1 b1]. apply do_swap_spec in E.
      destruct E as (q & p1 & p2 & L1 & L2 & Hne & Hp & -> & _ & _ & _ & _ & _ & _ & _ & Hlp & _).
      eapply Hset; eauto.
    - unfold update_protocol_fee in H. bstep H u E. injection H as <-. eauto.
    - unfold update_protocol_fee_receiver in H. bstep H u E. injection H as <-. eauto.
    - bstep H x E. injection H as <-. eauto.
    - bstep H x E. injection H as <-. eauto.
    - bstep H x E. injection H as <-. eauto.
  Qed.

  Lemma history_keeps_pool s os s' k p :
    cfg_ok C -> amm_inv C s -> amm_history C P s os s' -> pools s !! k = Some p ->
    exists p', pools s' !! k = Some p' /\ p_lp p' = p_lp p.
  Proof.
    intros HC I H. revert p. induction H as [s | s o os s' Hop H IH]; intros p Hk; [eauto|].
    revert H IH. unfold amm_exec. destruct (amm_step C P s o) as [s1|e|] eqn:E; intros H IH; [|eauto|eauto].
    pose proof (step_inv C P s o s1 HC I Hop E) as I1.
    destruct (step_keeps_pool s o s1 k p I Hop E Hk) as (p1 & Hk1 & <-). apply IH; auto.
  Qed.
End p4.
