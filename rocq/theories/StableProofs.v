From Verif Require Import Base MapSum Ledger AmmModel AmmSpec AmmProofs AmmInv StableModel StableSpec.

Lemma unwrap_r_ok {A} (m : res A) x : unwrap_r m = Ok x -> m = Ok x.
Proof. destruct m; cbn; congruence. Qed.

Section inv.
  Context (C : ss_cfg) (P : policy).

  Lemma ss_mint_fee_spec L p f p' L' :
    ss_mint_fee C P L p = Ok (f, p', L') ->
      0 <= f /\ p_base p' = p_base p /\ p_quote p' = p_quote p /\ p_lp p' = p_lp p /\ p_ts p' = p_ts p /\
      p_price0 p' = p_price0 p /\ p_price1 p' = p_price1 p /\
      (forall a w, bal L' a w = bal L a w + at_ (p_lp p) (ss_receiver C) a w f) /\
      (forall a, iss L' a = iss L a + (if bool_decide (a = p_lp p) then f else 0)) /\
      (ledger_wf L -> ledger_wf L').
  Proof.
    unfold ss_mint_fee. destruct (ss_fee_on C) eqn:Eon; cbn [negb].
    2:{ intros [= <- <- <-]. repeat (split; [first [lia | destruct (negb _); reflexivity]|]).
        split; [intros; unfold at_; case_bool_decide; lia|].
        split; [intros; case_bool_decide; lia|]. auto. }
    intros H. bstep H dl Edl. bstep H dn Edn.
    destruct (_ <=? _) eqn:Ek.
    { injection H as <- <- <-. repeat (split; [first [lia | reflexivity]|]).
      split; [intros; unfold at_; case_bool_decide; lia|].
      split; [intros; case_bool_decide; lia|]. auto. }
    bstep H rc Erc. bstep H sc Esc. bstep H q Eq. bstep H f' Ef. bstep H L1 Em.
    injection H as <- <- <-. pose proof (mint_spec _ _ _ _ _ _ Em) as (S0 & S1 & S2).
    repeat (split; [first [lia | reflexivity]|]). split; [auto|]. split; [auto|].
    intros W; eapply mint_wf; eauto.
  Qed.

  Lemma ss_do_add_spec ps L who p ib iq ba qa p' L' :
    0 <= ib -> 0 <= iq ->
    ss_do_add C P ps L who p (ib, iq) (ba, qa) = Ok (p', L') ->
    exists liq minted locked d0 d1,
      0 <= liq /\ 0 <= minted /\ 0 <= locked /\
      p_base p' = p_base p + ib /\ p_quote p' = p_quote p + iq /\ p_lp p' = p_lp p /\
      p_ts p' = p_ts p /\ p_price0 p' = p_price0 p /\ p_price1 p' = p_price1 p /\
      0 <= p_base p' <= U128MAX /\ 0 <= p_quote p' <= U128MAX /\
      (iss L (p_lp p) = 0 /\ locked = ss_min_liq C /\ liq = Z.sqrt (ib * iq) - ss_min_liq C \/
       iss L (p_lp p) <> 0 /\ locked = 0 /\ p_base p <> 0 /\ p_quote p <> 0 /\
         liq = Z.min (ib * iss L (p_lp p) / p_base p) (iq * iss L (p_lp p) / p_quote p)) /\
      (ps !! (ba, qa) = None -> d0 = 0 /\ d1 = 0) /\
      (forall q, ps !! (ba, qa) = Some q -> exists tb tq,
          get_reserves ps ba qa = Ok (tb, tq) /\ delta C tb tq = Ok d0 /\ 
          delta C (p_base p + ib) (p_quote p + iq) = Ok d1 /\ d0 <= d1) /\
      (0 < iss L (p_lp p) -> d0 <> 0 /\ minted = liq + liq * (d1 - d0) / d0) /\
      (iss L (p_lp p) <= 0 -> minted = liq + d1) /\
      (forall a w, bal L' a w = bal L a w + at_ (p_lp p) (ss_lock C) a w locked
          + at_ (p_lp p) who a w minted - at_ ba who a w ib + at_ ba (ss_acct C) a w ib
          - at_ qa who a w iq + at_ qa (ss_acct C) a w iq) /\
      (forall a, iss L' a = iss L a + (if bool_decide (a = p_lp p) then locked + minted else 0)) /\
      (ledger_wf L -> ledger_wf L') /\
      p_base_last p' = (if ss_fee_on C then p_base p' else p_base_last p) /\
      p_quote_last p' = (if ss_fee_on C then p_quote p' else p_quote_last p).
  Proof.
    intros Hib Hiq H. unfold ss_do_add in H. bstep H d0 Ed0. bstep H x El. destruct x as [liq L1].
    bstep H nb Enb. bstep H nq Enq. bstep H d1 Ed1. bstep H mi Emi. bstep H L2 E2. bstep H L3 E3. bstep H L4 E4.
    injection H as <- <-.
    destruct Enb as [-> Enb], Enq as [-> Enq].
    pose proof (mint_spec _ _ _ _ _ _ E2) as (S0 & S1 & S2).
    pose proof (transfer_spec _ _ _ _ _ _ _ _ E3) as (T1 & T2 & _).
    pose proof (transfer_spec _ _ _ _ _ _ _ _ E4) as (U1 & U2 & _).
    apply unwrap_r_ok in El. unfold ss_liquidity in El.
    set (total := iss L (p_lp p)) in *.
    exists liq, mi, (if total =? 0 then ss_min_liq C else 0), d0, d1.
    set (pp := if ss_fee_on C then _ else _).
    assert (Hpp : p_base pp = p_base p + ib /\ p_quote pp = p_quote p + iq /\ p_lp pp = p_lp p /\
      p_ts pp = p_ts p /\ p_price0 pp = p_price0 p /\ p_price1 pp = p_price1 p /\
      p_base_last pp = (if ss_fee_on C then p_base pp else p_base_last p) /\
      p_quote_last pp = (if ss_fee_on C then p_quote pp else p_quote_last p)).
    { subst pp. destruct (ss_fee_on C); repeat split. }
    clearbody pp. destruct Hpp as (F1 & F2 & F3 & F4 & F5 & F6 & F7 & F8).
    assert (Hlocked : 0 <= liq /\ 0 <= (if total =? 0 then ss_min_liq C else 0) /\
       (total = 0 /\ (if total =? 0 then ss_min_liq C else 0) = ss_min_liq C /\ liq = Z.sqrt (ib * iq) - ss_min_liq C \/
       total <> 0 /\ (if total =? 0 then ss_min_liq C else 0) = 0 /\ p_base p <> 0 /\ p_quote p <> 0 /\
         liq = Z.min (ib * total / p_base p) (iq * total / p_quote p)) /\
       (forall a w, bal L1 a w = bal L a w + at_ (p_lp p) (ss_lock C) a w (if total =? 0 then ss_min_liq C else 0)) /\
       (forall a, iss L1 a = iss L a + (if bool_decide (a = p_lp p) then (if total =? 0 then ss_min_liq C else 0) else 0)) /\
       (ledger_wf L -> ledger_wf L1)).
    { destruct (total =? 0) eqn:Ei.
      - bstep El L1' Em. bstep El u Er.
        bstep El l Ec. injection El as <- <-. apply chk_some in Ec. destruct Ec as [-> Ec].
        pose proof (mint_spec _ _ _ _ _ _ Em) as (M0 & M1 & M2).
        split; [lia|]. split; [lia|]. split; [left; repeat split; lia|]. split; [auto|]. split; [auto|].
        intros W; eapply mint_wf; eauto.
      - bstep El l0 E0. bstep El l0' E0'. bstep El l1 E1. bstep El l1' E1'. injection El as <- <-.
        apply chk_some in E0', E1'. destruct E0 as [-> E0], E1 as [-> E1], E0' as [-> ?], E1' as [-> ?].
        split; [lia|]. split; [lia|]. split; [right; repeat split; auto; lia|].
        split; [intros; unfold at_; clear; case_bool_decide; lia|].
        split; [intros; clear; case_bool_decide; lia|]. auto. }
    destruct Hlocked as (Kl & K0 & K1 & K2 & K3 & K4).
    clear El.
    split; [exact Kl|]. split; [exact S0|]. split; [exact K0|].
    repeat (split; [first [assumption | lia]|]).
    split.
    { intros En. rewrite bool_decide_false in Ed0, Ed1 by (rewrite En; intros [? ?]; discriminate).
      injection Ed0 as <-. injection Ed1 as <-. auto. }
    split.
    { intros q Hq. rewrite bool_decide_true in Ed0, Ed1 by (rewrite Hq; eauto).
      bstep Ed0 y Ey. destruct y as [tb tq]. apply unwrap_r_ok in Ed0, Ey.
      bstep Ed1 d1' E1. bstep Ed1 u Eu. injection Ed1 as <-. apply unwrap_r_ok in E1.
      exists tb, tq. repeat split; auto; lia. }
    split.
    { intros Ht. destruct (0 <? total) eqn:Et; [|lia].
      bstep Emi g Eg. bstep Emi m Em. bstep Emi q Eq.
      unfold raw_add, unwrap, checked_add in Emi. destruct (chk _) as [z|] eqn:Ez; [|discriminate Emi].
      injection Emi as ->. apply chk_some in Ez. destruct Ez as [-> _].
      destruct Eg as [-> _], Em as [-> _], Eq as [-> Hz]. auto. }
    split.
    { intros Ht. destruct (0 <? total) eqn:Et; [lia|].
      unfold raw_add, unwrap, checked_add in Emi. destruct (chk _) as [z|] eqn:Ez; [|discriminate Emi].
      injection Emi as ->. apply chk_some in Ez. destruct Ez as [-> _]. auto. }
    split.
    { intros a w. rewrite U1, T1, S1, K2. lia. }
    split.
    { intros a. rewrite U2, T2, S2, K3. clear. case_bool_decide; lia. }
    split; [|auto].
    intros W. eapply transfer_wf; [|eapply transfer_wf; [|eapply mint_wf; [|exact E2]|exact E3]|exact E4]; auto.
  Qed.

  Lemma ss_do_remove_spec L who p l ba qa b q p' L' :
    ss_do_remove C P L who p l (ba, qa) = Ok (b, q, p', L') ->
    let T := iss L (p_lp p) in
      T <> 0 /\ 0 <= l /\ (0 < l -> l <= bal L (p_lp p) who) /\
      b = l * p_base p / T /\ q = l * p_quote p / T /\ 0 <= b <= p_base p /\ 0 <= q <= p_quote p /\
      p_base p' = p_base p - b /\ p_quote p' = p_quote p - q /\ p_lp p' = p_lp p /\
      p_ts p' = p_ts p /\ p_price0 p' = p_price0 p /\ p_price1 p' = p_price1 p /\
      (forall a w, bal L' a w = bal L a w - at_ (p_lp p) who a w l
          - at_ ba (ss_acct C) a w b + at_ ba who a w b
          - at_ qa (ss_acct C) a w q + at_ qa who a w q) /\
      (forall a, iss L' a = iss L a - (if bool_decide (a = p_lp p) then l else 0)) /\
      (ledger_wf L -> ledger_wf L').
  Proof.
    intros H. unfold ss_do_remove, calculate_reserves_to_remove in H.
    bstep H x Ec. destruct x as [b0 q0].
    bstep Ec b1 E0. bstep Ec b2 E0'. bstep Ec q1 E1. bstep Ec q2 E1'. injection Ec as -> ->.
    apply chk_some in E0', E1'. destruct E0 as [-> E0], E1 as [-> E1], E0' as [-> E0'], E1' as [-> E1'].
    bstep H nb Enb. bstep H nq Enq. bstep H L1 B. bstep H L2 E2. bstep H L3 E3. injection H as <- <- <- <-.
    destruct Enb as [-> Enb], Enq as [-> Enq].
    pose proof (burn_spec _ _ _ _ _ _ B) as (S0 & S3 & S1 & S2).
    pose proof (transfer_spec _ _ _ _ _ _ _ _ E2) as (T1 & T2 & _).
    pose proof (transfer_spec _ _ _ _ _ _ _ _ E3) as (U1 & U2 & _).
    cbn zeta.
    split; [auto|]. split; [lia|]. split; [auto|].
    split; [auto|]. split; [auto|]. split; [lia|]. split; [lia|].
    destruct (ss_fee_on C); cbn;
    (repeat (split; [first [assumption | lia]|]);
     split; [intros a w; rewrite U1, T1, S1; lia|];
     split; [intros a; rewrite U2, T2, S2; lia|];
     intros W; eapply transfer_wf; [|eapply transfer_wf; [|eapply burn_wf; [|exact B]|exact E2]|exact E3]; auto; lia).
  Qed.

  (** ** full descriptions of the entry points *)
  Lemma ss_swap_spec now s who ai ao amt out s' :
    ss_swap C P now s who (ai, ao) amt = Ok (out, s') ->
    exists p p1 p2 L1 L2,
      let k := pair_key ai ao in
      ai <> ao /\ ss_pools s !! k = Some p /\ s' = ss_set s k p2 L2 /\
      reserve k p ao <> 0 /\
      ss_amount_out C amt (reserve k p ai) (reserve k p ao) = Ok out /\
      p1 = (if ai <? ao then set_reserves p (reserve k p ao - out) (reserve k p ai + amt)
            else set_reserves p (reserve k p ai + amt) (reserve k p ao - out)) /\
      do_update_oracle now p1 = Ok p2 /\
      (forall a, reserve k p2 a = reserve k p a + (if bool_decide (a = ai) then amt else 0)
                                   - (if bool_decide (a = ao) then out else 0)) /\
      transfer P (ss_led s) ai who (ss_acct C) amt true = Ok L1 /\
      transfer P L1 ao (ss_acct C) who out false = Ok L2 /\
      p_lp p2 = p_lp p /\ 0 <= out /\ 0 <= reserve k p ao - out <= U128MAX /\
      ss_lp_fee C <> 0 /\ sat128 (PMILL / ss_lp_fee C) <= amt /\
      0 <= reserve k p ai + amt <= U128MAX.
  Proof.
    unfold ss_swap. intros H. bstep H x E. destruct x as [[inv ba] qa].
    apply sort_assets_spec in E. destruct E as (Hne & Hk & Hinv). bstep H p Ep. rewrite Hk in *.
    rewrite (reserve_in_out inv ai ao p Hne Hinv) in H.
    unfold p_recip_mul_floor in H. destruct (ss_lp_fee C =? 0) eqn:Ef; [discriminate H|]. cbn [rbind] in H.
    bstep H u Eu. bstep H u2 Eu2. bstep H o Eo. bstep H ni Eni. bstep H no Eno.
    destruct Eni as [-> Eni], Eno as [-> Eno].
    bstep H p2 Ep2. bstep H L1 EL1. bstep H L2 EL2. injection H as <- <-.
    pose proof Ep2 as Ep3. apply do_update_oracle_spec in Ep3. destruct Ep3 as (Ep3 & _).
    assert (Ho : 0 <= o).
    { unfold ss_amount_out in Eo. bstep Eo r Er. bstep Eo ain Ea. bstep Eo d Ed. bstep Eo nq Enq. bstep Eo nb Enb.
      ok_simpl Eo. unfold checked_sub in Eo. first [apply chk_some in Eo | idtac]. lia. }
    eexists p, _, p2, L1, L2. cbv zeta.
    split; [exact Hne|]. split; [exact Ep|]. split; [reflexivity|]. split; [lia|]. split; [exact Eo|].
    split; [reflexivity|]. rewrite <- Hinv. split; [exact Ep2|].
    split.
    { intros a. rewrite Ep3, reserve_set_oracle.
      rewrite (reserve_set_swap inv ai ao p _ _ Hne Hinv a).
      clear -Hne. destruct (decide (a = ai)) as [->|]; [|destruct (decide (a = ao)) as [->|]];
        repeat case_bool_decide; subst; try congruence; try lia.
      rewrite reserve_other by auto. lia. }
    split; [exact EL1|]. split; [exact EL2|].
    split. { rewrite Ep3. cbn. destruct inv; reflexivity. }
    rewrite Z.mul_1_l in Eu. lia.
  Qed.

  Lemma ss_ideal_spec p b q ib iq :
    0 <= b -> 0 <= q -> 0 <= p_base p -> 0 <= p_quote p ->
    ss_ideal p (b, q) = Ok (ib, iq) ->
    0 <= ib /\ 0 <= iq /\
    (p_base p = 0 /\ p_quote p = 0 /\ ib = b /\ iq = q \/
     p_base p <> 0 /\ ib = b /\ iq = b * p_quote p / p_base p \/
     p_quote p <> 0 /\ iq = q /\ ib = q * p_base p / p_quote p).
  Proof.
    intros Hb Hq Hpb Hpq H. unfold ss_ideal in H. destruct (pool_is_empty p) eqn:Ee.
    { injection H as <- <-. unfold pool_is_empty in Ee. apply andb_prop in Ee. split; [auto|]. split; [auto|]. left. lia. }
    unfold ss_quote in H. bstep H x Ex. bstep Ex m Em. destruct Em as [-> Em]. ok_simpl Ex. 
    unfold checked_div in Ex. destruct (p_base p =? 0) eqn:E0; [discriminate Ex|]. injection Ex as <-.
    destruct (_ <=? _).
    - injection H as <- <-. split; [auto|]. split; [apply Z.div_pos; lia|]. right; left. lia.
    - bstep H y Ey. bstep Ey m2 Em2. destruct Em2 as [-> Em2]. ok_simpl Ey.
      unfold checked_div in Ey. destruct (p_quote p =? 0) eqn:E1; [discriminate Ey|]. injection Ey as <-.
      injection H as <- <-. split; [apply Z.div_pos; lia|]. split; [auto|]. right; right. lia.
  Qed.

  Definition ss_nonneg (s : ss) : Prop :=
    forall k p, ss_pools s !! k = Some p -> 0 <= p_base p /\ 0 <= p_quote p.

  Lemma ss_add_spec s who a b desired minimum s' :
    ss_nonneg s -> 0 <= desired.1 -> 0 <= desired.2 ->
    ss_add C P s who (a, b) desired minimum = Ok s' ->
    exists p p1 L1 p2 L2 ib iq f,
      let k := pair_key a b in
      let da := sorted_amounts a b desired in
      let mi := sorted_amounts a b minimum in
      a <> b /\ ss_pools s !! k = Some p /\ ss_ideal p da = Ok (ib, iq) /\
      0 <= ib <= da.1 /\ 0 <= iq <= da.2 /\ mi.1 <= ib /\ mi.2 <= iq /\
      ss_mint_fee C P (ss_led s) p = Ok (f, p1, L1) /\
      ss_do_add C P (ss_pools s) L1 who p1 (ib, iq) k = Ok (p2, L2) /\
      s' = ss_set s k p2 L2.
  Proof.
    intros Hnn Hd1 Hd2 H. unfold ss_add in H. bstep H x E. destruct x as [[inv ba] qa].
    apply sort_assets_spec in E. destruct E as (Hne & Hk & ->).
    fold (sorted_amounts a b desired) in H. fold (sorted_amounts a b minimum) in H.
    assert (Hda : 0 <= (sorted_amounts a b desired).1 /\ 0 <= (sorted_amounts a b desired).2)
      by (unfold sorted_amounts; destruct (a <? b); cbn; lia).
    destruct (sorted_amounts a b desired) as [d1 d2]. destruct (sorted_amounts a b minimum) as [m1 m2].
    bstep H p Ep. bstep H y Ey. destruct y as [ib iq]. bstep H u1 E1. bstep H u2 E2.
    bstep H z Ez. destruct z as [[f p1] L1]. bstep H w Ew. destruct w as [p2 L2]. injection H as <-.
    rewrite Hk in *. destruct (Hnn _ _ Ep) as [Hb Hq].
    destruct (ss_ideal_spec p d1 d2 ib iq) as (? & ? & _); cbn in *; try tauto.
    apply andb_prop in E1, E2.
    exists p, p1, L1, p2, L2, ib, iq, f. cbv zeta. cbn [fst snd].
    repeat split; auto; lia.
  Qed.

  Lemma ss_remove_spec s who a b l s' :
    ss_remove C P s who (a, b) l = Ok s' ->
    exists p p1 L1 p2 L2 f x y,
      let k := pair_key a b in
      a <> b /\ ss_pools s !! k = Some p /\
      ss_mint_fee C P (ss_led s) p = Ok (f, p1, L1) /\
      ss_do_remove C P L1 who p1 l k = Ok (x, y, p2, L2) /\
      s' = ss_set s k p2 L2.
  Proof.
    intros H. unfold ss_remove in H. bstep H x E. destruct x as [[inv ba] qa].
    apply sort_assets_spec in E. destruct E as (Hne & Hk & ->). rewrite Hk in *.
    bstep H p Ep. bstep H z Ez. destruct z as [[f p1] L1].
    bstep H w Ew. destruct w as [[[x y] p2] L2]. injection H as <-.
    exists p, p1, L1, p2, L2, f, x, y. cbn. repeat split; auto.
  Qed.

  Lemma ss_create_spec s o a b amounts r lp s' :
    ss_create C P s o (a, b) amounts r lp = Ok s' ->
    exists p L,
      let k := pair_key a b in
      ss_origin C o = true /\ a <> b /\ ss_pools s !! k = None /\ iss (ss_led s) lp = 0 /\
      ss_do_add C P (ss_pools s) (ss_led s) r (new_pool lp) (sorted_amounts a b amounts) k = Ok (p, L) /\ s' = ss_set s k p L.
  Proof.
    intros H. unfold ss_create in H. bstep H u E0. bstep H x E. destruct x as [[inv ba] qa].
    apply sort_assets_spec in E. destruct E as (Hne & Hk & ->). rewrite Hk in *.
    bstep H u1 E1. apply bool_decide_eq_true in E1. bstep H u2 E2.
    bstep H w Ew. destruct w as [p L]. injection H as <-.
    exists p, L. cbn. unfold sorted_amounts. repeat split; auto. lia.
  Qed.

  (** ** The invariant *)
  Record ss_inv (s : ss) : Prop := {
    si_wf : ledger_wf (ss_led s);
    si_key : forall k p, ss_pools s !! k = Some p -> k.2 < k.1;
    si_pos : forall k p, ss_pools s !! k = Some p -> 0 <= p_base p <= U128MAX /\ 0 <= p_quote p <= U128MAX;
    si_lock : forall k p, ss_pools s !! k = Some p -> ss_min_liq C <= bal (ss_led s) (p_lp p) (ss_lock C);
    si_uniq : forall k1 p1 k2 p2, ss_pools s !! k1 = Some p1 -> ss_pools s !! k2 = Some p2 -> p_lp p1 = p_lp p2 -> k1 = k2;
    si_solv : ss_solvent C s
  }.

  Lemma ss_total_set s k p p' L a :
    ss_pools s !! k = Some p ->
    ss_total (ss_set s k p' L) a = ss_total s a + reserve k p' a - reserve k p a.
  Proof. intros Hk. unfold ss_total, ss_set; cbn. rewrite msum_insert, Hk. lia. Qed.
  Lemma ss_total_new s k p' L a :
    ss_pools s !! k = None ->
    ss_total (ss_set s k p' L) a = ss_total s a + reserve k p' a.
  Proof. intros Hk. unfold ss_total, ss_set; cbn. rewrite msum_insert, Hk. lia. Qed.

  Lemma si_nonneg s : ss_inv s -> ss_nonneg s.
  Proof. intros I k p Hk. destruct (si_pos s I k p Hk). lia. Qed.

  Lemma si_update s k p p' L' :
    ss_inv s -> ss_pools s !! k = Some p ->
    p_lp p' = p_lp p -> 0 <= p_base p' <= U128MAX -> 0 <= p_quote p' <= U128MAX ->
    ledger_wf L' ->
    (forall a, ss_is_lp s a -> ss_min_liq C <= bal L' a (ss_lock C)) ->
    (forall a, reserve k p' a - reserve k p a <= bal L' a (ss_acct C) - bal (ss_led s) a (ss_acct C)) ->
    ss_inv (ss_set s k p' L').
  Proof.
    intros I Hk Hlp Hb Hq W Hlock Hs.
    assert (G : forall k1 p1, (ss_pools (ss_set s k p' L')) !! k1 = Some p1 ->
                exists p0, ss_pools s !! k1 = Some p0 /\ p_lp p1 = p_lp p0).
    { intros k1 p1. cbn. destruct (decide (k1 = k)) as [->|Hne].
      - rewrite lookup_insert. intros [= <-]. eauto.
      - rewrite lookup_insert_ne by auto. eauto. }
    split; cbn.
    - auto.
    - intros k1 p1 H1. destruct (G k1 p1 H1) as (p0 & H0 & _). eapply si_key; eauto.
    - intros k1 p1. destruct (decide (k1 = k)) as [->|Hne].
      + rewrite lookup_insert. intros [= <-]. auto.
      + rewrite lookup_insert_ne by auto. apply si_pos; auto.
    - intros k1 p1 H1. destruct (G k1 p1 H1) as (p0 & H0 & ->). apply Hlock. exists k1, p0; auto.
    - intros k1 p1 k2 p2 H1 H2 E. destruct (G k1 p1 H1) as (q1 & Q1 & E1). destruct (G k2 p2 H2) as (q2 & Q2 & E2).
      eapply si_uniq; eauto. congruence.
    - intros a. rewrite (ss_total_set s k p p' L' a Hk). cbn. pose proof (si_solv s I a). specialize (Hs a). lia.
  Qed.

  Lemma ss_swap_inv now s who pr amt out s' :
    ss_cfg_ok C -> ss_inv s -> ss_user C who -> u128_ok amt ->
    ss_swap C P now s who pr amt = Ok (out, s') -> ss_inv s'.
  Proof.
    intros HC I [Hu1 Hu2] Ha H. destruct pr as [ai ao]. apply ss_swap_spec in H.
    destruct H as (p & p1 & p2 & L1 & L2 & Hne & Hp & -> & Hro & Hout & Hp1 & Hor & Hres & HL1 & HL2 & Hlp & G1 & Hge & Hf & Hmin & Hov).
    destruct (si_pos s I _ _ Hp) as [Hb Hq]. unfold u128_ok in Ha.
    pose proof (transfer_wf _ _ _ _ _ _ _ _ ltac:(apply Ha) (si_wf s I) HL1) as W1.
    pose proof (transfer_wf _ _ _ _ _ _ _ _ ltac:(apply G1) W1 HL2) as W2.
    apply transfer_spec in HL1, HL2. destruct HL1 as (B1 & I1 & _), HL2 as (B2 & I2 & _).
    assert (R : 0 <= p_base p2 <= U128MAX /\ 0 <= p_quote p2 <= U128MAX).
    { apply do_update_oracle_spec in Hor. destruct Hor as (-> & _). cbn. rewrite Hp1.
      destruct (ai <? ao); cbn; lia. }
    apply si_update with p; auto; try apply R.
    - intros a (k & q & Hk & <-). rewrite B2, B1.
      pose proof (si_lock s I k q Hk). unfold at_. destruct HC as (_&_&_&_&?).
      repeat case_bool_decide; destruct_and?; subst; try congruence; lia.
    - intros a. rewrite B2, B1, Hres. unfold at_.
      repeat case_bool_decide; destruct_and?; subst; try congruence; try tauto; lia.
  Qed.

  Lemma ss_add_inv s who pr d m s' :
    ss_cfg_ok C -> ss_inv s -> ss_user C who -> u128_ok d.1 -> u128_ok d.2 ->
    ss_add C P s who pr d m = Ok s' -> ss_inv s'.
  Proof.
    intros HC I [Hu1 Hu2] Hd1 Hd2 H. destruct pr as [a b]. unfold u128_ok in *.
    apply ss_add_spec in H; try lia; [|apply si_nonneg; auto].
    destruct H as (p & p1 & L1 & p2 & L2 & ib & iq & f & Hne & Hp & Hid & Hib & Hiq & _ & _ & Hf & Hadd & ->).
    destruct (ss_mint_fee_spec _ _ _ _ _ Hf) as (F0 & F1 & F2 & F3 & _ & _ & _ & F4 & F5 & F6).
    unfold pair_key in Hadd.
    destruct (ss_do_add_spec _ _ _ _ _ _ _ _ _ _ (proj1 Hib) (proj1 Hiq) Hadd) as
      (liq & minted & locked & d0 & d1 & Al & A0 & A1 & A2 & A3 & A4 & _ & _ & _ & A5 & A6 & A7 & _ & _ & _ & _ & A8 & A9 & A10 & _).
    destruct (si_pos s I _ _ Hp) as [Hb Hq].
    apply si_update with p; auto; try congruence; try lia.
    - apply A10, F6, si_wf, I.
    - intros x (k & q & Hk & <-). rewrite A8, F4.
      pose proof (si_lock s I k q Hk). destruct HC as (_&_&_&_&HC).
      pose proof (at_nonneg (p_lp p1) (ss_lock C) (p_lp q) (ss_lock C) locked A1).
      pose proof (at_nonneg (p_lp p) (ss_receiver C) (p_lp q) (ss_lock C) f F0).
      rewrite !(at_other _ who) by auto. rewrite !(at_other _ (ss_acct C)) by auto. lia.
    - intros x. rewrite A8, F4. unfold reserve, pair_key; cbn.
      pose proof (at_nonneg (p_lp p1) (ss_lock C) x (ss_acct C) locked A1).
      pose proof (at_nonneg (p_lp p) (ss_receiver C) x (ss_acct C) f F0).
      rewrite !(at_other _ who) by auto. rewrite !at_same. 
      repeat case_bool_decide; try lia.
  Qed.

  Lemma ss_remove_inv s who pr l s' :
    ss_cfg_ok C -> ss_inv s -> ss_user C who -> u128_ok l ->
    ss_remove C P s who pr l = Ok s' -> ss_inv s'.
  Proof.
    intros HC I [Hu1 Hu2] Hl H. destruct pr as [a b]. unfold u128_ok in *.
    apply ss_remove_spec in H.
    destruct H as (p & p1 & L1 & p2 & L2 & f & rb & rq & Hne & Hp & Hf & Hrem & ->).
    destruct (ss_mint_fee_spec _ _ _ _ _ Hf) as (F0 & F1 & F2 & F3 & _ & _ & _ & F4 & F5 & F6).
    unfold pair_key in Hrem.
    apply ss_do_remove_spec in Hrem. cbn zeta in Hrem.
    destruct Hrem as (A0 & A1 & A2 & A3 & A4 & A5 & A6 & A7 & A8 & A9 & _ & _ & _ & A10 & A11 & A12).
    destruct (si_pos s I _ _ Hp) as [Hb Hq].
    assert (W1 : ledger_wf L1) by (apply F6, si_wf, I).
    apply si_update with p; auto; try congruence; try lia.
    - intros x (k & q & Hk & <-). rewrite A10, F4.
      pose proof (si_lock s I k q Hk). destruct HC as (_&_&_&_&HC).
      pose proof (at_nonneg (p_lp p) (ss_receiver C) (p_lp q) (ss_lock C) f F0).
      rewrite !(at_other _ who) by auto. rewrite !(at_other _ (ss_acct C)) by auto. lia.
    - intros x. rewrite A10, F4. unfold reserve, pair_key; cbn.
      pose proof (at_nonneg (p_lp p) (ss_receiver C) x (ss_acct C) f F0).
      rewrite !(at_other _ who) by auto. rewrite !at_same. 
      repeat case_bool_decide; try lia.
  Qed.

  Lemma ss_create_inv s o pr amts r lp s' :
    ss_cfg_ok C -> ss_inv s -> ss_user C r -> u128_ok amts.1 -> u128_ok amts.2 ->
    ss_create C P s o pr amts r lp = Ok s' -> ss_inv s'.
  Proof.
    intros HC I [Hu1 Hu2] Hd1 Hd2 H. destruct pr as [a b]. unfold u128_ok in *.
    apply ss_create_spec in H.
    destruct H as (p & L & _ & Hne & Hnone & Hiss & Hadd & ->).
    set (am := sorted_amounts a b amts) in *.
    assert (Ham : 0 <= am.1 /\ 0 <= am.2) by (subst am; unfold sorted_amounts; destruct (a <? b); cbn; lia).
    clearbody am. destruct am as [ib iq]. cbn in Ham. unfold pair_key in Hadd.
    destruct (ss_do_add_spec _ _ _ _ _ _ _ _ _ _ (proj1 Ham) (proj2 Ham) Hadd) as
      (liq & minted & locked & d0 & d1 & Al & A0 & A1 & A2 & A3 & A4 & _ & _ & _ & A5 & A6 & A7 & _ & _ & _ & _ & A8 & A9 & A10 & _).
    cbn [new_pool p_lp p_base p_quote] in *.
    destruct A7 as [(_ & -> & ->)|(? & _)]; [|congruence].
    destruct HC as (Hfee & _ & Hml & _ & Hacc).
    assert (Hfresh : forall k q, ss_pools s !! k = Some q -> p_lp q <> lp).
    { intros k q Hk E. pose proof (si_lock s I k q Hk). pose proof (bal_le_iss (ss_led s) (p_lp q) (ss_lock C) (si_wf s I)).
      rewrite E in *. lia. }
    assert (Hlk : forall x, bal (ss_led s) x (ss_lock C) <= bal L x (ss_lock C)).
    { intros x. rewrite A8. pose proof (at_nonneg lp (ss_lock C) x (ss_lock C) (ss_min_liq C) ltac:(lia)).
      rewrite !(at_other _ r) by auto. rewrite !(at_other _ (ss_acct C)) by auto. lia. }
    split; cbn.
    - apply A10, si_wf, I.
    - intros k q. destruct (decide (k = pair_key a b)) as [->|Hk].
      + rewrite lookup_insert. intros _. unfold pair_key; cbn. lia.
      + rewrite lookup_insert_ne by auto. apply si_key; auto.
    - intros k q. destruct (decide (k = pair_key a b)) as [->|Hk].
      + rewrite lookup_insert. intros [= <-]. lia.
      + rewrite lookup_insert_ne by auto. apply si_pos; auto.
    - intros k q. destruct (decide (k = pair_key a b)) as [->|Hk].
      + rewrite lookup_insert. intros [= <-]. rewrite A4, A8.
        rewrite !(at_other _ r) by auto. rewrite !(at_other _ (ss_acct C)) by auto.
        rewrite at_same, bool_decide_true by auto. destruct (si_wf s I) as [Hb _]. pose proof (Hb lp (ss_lock C)). lia.
      + rewrite lookup_insert_ne by auto. intros Hq. pose proof (si_lock s I k q Hq). pose proof (Hlk (p_lp q)). lia.
    - intros k1 q1 k2 q2.
      destruct (decide (k1 = pair_key a b)) as [->|Hk1], (decide (k2 = pair_key a b)) as [->|Hk2];
        rewrite ?lookup_insert, ?lookup_insert_ne by auto; auto.
      + intros [= <-] Hq2 E. rewrite A4 in E. destruct (Hfresh _ _ Hq2); auto.
      + intros Hq1 [= <-] E. rewrite A4 in E. destruct (Hfresh _ _ Hq1); auto.
      + apply si_uniq; auto.
    - intros x. rewrite ss_total_new by auto. cbn [ss_led ss_set]. rewrite A8.
      pose proof (si_solv s I x). unfold reserve, pair_key; cbn.
      pose proof (at_nonneg lp (ss_lock C) x (ss_acct C) (ss_min_liq C) ltac:(lia)).
      rewrite !(at_other _ r) by auto. rewrite !at_same.
      repeat case_bool_decide; lia.
  Qed.

  Lemma si_ledger s L :
    ss_inv s -> ledger_wf L ->
    (forall a, ss_is_lp s a -> ss_min_liq C <= bal L a (ss_lock C)) ->
    (forall a, bal (ss_led s) a (ss_acct C) <= bal L a (ss_acct C)) ->
    ss_inv (mkSs (ss_pools s) L).
  Proof.
    intros I W Hl Hs. split; cbn; try apply I; auto.
    - intros k p Hk. apply Hl. exists k, p; auto.
    - intros a. pose proof (si_solv s I a). specialize (Hs a). cbn. unfold ss_total in *; cbn. lia.
  Qed.

  Lemma ss_step_inv s o s' :
    ss_cfg_ok C -> ss_inv s -> ss_op_ok C s o -> ss_step C P s o = Ok s' -> ss_inv s'.
  Proof.
    intros HC I Hop H. destruct o; cbn in Hop, H.
    - destruct Hop as (? & ? & ?). eapply ss_add_inv; eauto.
    - destruct Hop. eapply ss_remove_inv; eauto.
    - destruct Hop as (? & ? & ?). eapply ss_create_inv; eauto.
    - bstep H x E. destruct x as [out s1]. injection H as <-. destruct Hop as (? & ? & ?). eapply ss_swap_inv; eauto.
    - bstep H L E. injection H as <-. destruct Hop as ([Hu1 Hu2] & Ha). unfold u128_ok in Ha.
      apply si_ledger; auto.
      + eapply transfer_wf; [|apply si_wf, I|exact E]. lia.
      + intros x (k & p & Hk & <-). apply transfer_spec in E. destruct E as (E & _). rewrite E.
        rewrite at_other by auto. pose proof (si_lock s I k p Hk).
        pose proof (at_nonneg a to (p_lp p) (ss_lock C) amt ltac:(lia)). lia.
      + intros x. apply transfer_spec in E. destruct E as (E & _). rewrite E. rewrite at_other by auto.
        pose proof (at_nonneg a to x (ss_acct C) amt ltac:(lia)). lia.
    - bstep H L E. injection H as <-. destruct Hop as (Ha & _). unfold u128_ok in Ha.
      apply si_ledger; auto.
      + eapply mint_wf; [apply si_wf, I|exact E].
      + intros x (k & p & Hk & <-). apply mint_spec in E. destruct E as (_ & E & _). rewrite E.
        pose proof (si_lock s I k p Hk).
        pose proof (at_nonneg a w (p_lp p) (ss_lock C) amt ltac:(lia)). lia.
      + intros x. apply mint_spec in E. destruct E as (_ & E & _). rewrite E.
        pose proof (at_nonneg a w x (ss_acct C) amt ltac:(lia)). lia.
    - bstep H L E. injection H as <-. destruct Hop as ([Hu1 Hu2] & Ha & _). unfold u128_ok in Ha.
      apply si_ledger; auto.
      + eapply burn_wf; [apply si_wf, I|exact E].
      + intros x (k & p & Hk & <-). apply burn_spec in E. destruct E as (_ & _ & E & _). rewrite E.
        rewrite at_other by auto. pose proof (si_lock s I k p Hk). lia.
      + intros x. apply burn_spec in E. destruct E as (_ & _ & E & _). rewrite E. rewrite at_other by auto. lia.
  Qed.

  Lemma ss_init_inv L : ledger_wf L -> ss_inv (ss_init L).
  Proof.
    intros W. split; cbn; auto; try (intros; rewrite lookup_empty in *; discriminate).
    intros a. unfold ss_total; cbn. rewrite msum_empty. apply W.
  Qed.

  Lemma ss_reach_inv s : ss_cfg_ok C -> ss_reachable C P s -> ss_inv s.
  Proof.
    intros HC H. induction H as [L W | s o H IH Hop].
    - apply ss_init_inv; auto.
    - unfold ss_exec. destruct (ss_step C P s o) eqn:E; auto. eapply ss_step_inv; eauto.
  Qed.
End inv.
