From Verif Require Import Base MapSum Ledger AmmModel AmmSpec AmmProofs AmmInv AmmProofs2 AmmProofs3 AmmProofs4 RouterModel RouterSpec RouterProofs.

Section proofs.
  Context (R : router_cfg) (P : policy).
  Let C := r_amm R.

  Lemma exact_in_full now s who r ain minout s' a0 out :
    who <> amm_acct C ->
    swap_exact_tokens_for_tokens R P now s who r ain minout = Ok (s', a0, out) ->
    r <> [] /\ Z.of_nat (length r) <= max_len R /\ NoDup r /\ 0 < ain /\ a0 = ain /\ minout <= out /\
    (exists amounts, get_amounts_out C (pools s) ain r = Ok amounts /\ last amounts = Some out) /\
    (forall a, bal (led s') a who = bal (led s) a who + route_delta r ain out a) /\
    (forall a, bal (led s') a (amm_acct C) = bal (led s) a (amm_acct C) - route_delta r ain out a) /\
    (forall a w, w <> who -> w <> amm_acct C -> bal (led s') a w = bal (led s) a w) /\
    (forall a, iss (led s') a = iss (led s) a) /\
    (forall k, (forall i a b, r !! i = Some a -> r !! S i = Some b -> k <> pair_key a b) ->
       pools s' !! k = pools s !! k).
  Proof.
    intros Hw H. unfold swap_exact_tokens_for_tokens in H. bstep H u Eu. apply route_checks_ok in Eu as (H1 & H2 & H3).
    bstep H u1 E1. apply andb_prop in E1 as [E1 _]. bstep H u2 E2. bstep H amounts Ea. bstep H l El.
    bstep H u3 E3. bstep H s1 Es. injection H as -> <- ->.
    destruct (get_amounts_out_len R _ _ _ _ Ea) as [Hlen Hhd].
    destruct (swap_route_effect R P now (pools s) who r s amounts s' Hw H3 ltac:(auto) Es)
      as (outs & Hlo & Hq & B1 & B2 & B3 & Hi & Hk).
    assert (Hm : forall a, moves r amounts outs a = route_delta r ain out a).
    { intros a. eapply (moves_exact R); eauto. }
    repeat (split; [solve [auto; lia]|]).
    split; [destruct amounts; cbn in *; congruence|].
    split; [lia|]. split; [eauto|].
    split; [intros a; rewrite B1, Hm; auto|].
    split; [intros a; rewrite B2, Hm; auto|]. auto.
  Qed.

  (** any chain of swaps on a reachable state only increases pool products *)
  Lemma swap_route_kprod now who r : forall s amts s',
    cfg_ok C -> amm_reachable C P s -> user C who -> 0 <= now -> Forall u128_ok amts ->
    swap_route R P now s who r amts = Ok s' ->
    forall k p, pools s !! k = Some p -> exists p', pools s' !! k = Some p' /\ kprod p <= kprod p' /\ p_lp p' = p_lp p.
  Proof.
    intros s amts s' HC. revert s amts. induction r as [|a r IH]; intros s amts HR Hu Hn Hf H k p Hk; cbn [swap_route] in H.
    { injection H as <-. exists p. repeat split; auto; lia. }
    destruct r as [|b r]. { injection H as <-. exists p. repeat split; auto; lia. }
    destruct amts as [|x amts]; [discriminate|].
    bstep H y E. destruct y as [o s1]. inversion Hf as [|? ? Hx Hf']; subst. fold C in E.
    assert (HR1 : amm_reachable C P s1).
    { replace s1 with (amm_exec C P s (OSwap now who (a, b) x)).
      - apply amm_reach_step; auto. cbn. auto.
      - unfold amm_exec, amm_step. rewrite E. reflexivity. }
    destruct (swap_full C P now s who a b x o s1 HC) as (q & q' & Hq & Hps & Hkp & _ & _ & _ & _ & _ & Hlp); auto.
    { apply (inv_nonneg C). apply (reachable_inv C P); auto. }
    { apply Hx. } { apply Hu. }
    assert (exists p1, pools s1 !! k = Some p1 /\ kprod p <= kprod p1 /\ p_lp p1 = p_lp p) as (p1 & Hk1 & Hkp1 & Hlp1).
    { rewrite Hps. destruct (decide (pair_key a b = k)) as [<-|Hne].
      - rewrite lookup_insert. exists q'. rewrite Hk in Hq. injection Hq as <-. auto.
      - rewrite lookup_insert_ne by auto. exists p. repeat split; auto; lia. }
    destruct (IH s1 amts HR1 Hu Hn Hf' H k p1 Hk1) as (p2 & ? & ? & ?). exists p2. repeat split; auto; try lia; congruence.
  Qed.

  Lemma exact_in_reachable now s who r ain minout s' a0 out :
    cfg_ok C -> amm_reachable C P s -> user C who -> 0 <= now -> u128_ok ain ->
    swap_exact_tokens_for_tokens R P now s who r ain minout = Ok (s', a0, out) ->
    amm_reachable C P s' /\
    forall k p, pools s !! k = Some p -> exists p', pools s' !! k = Some p' /\ kprod p <= kprod p' /\ p_lp p' = p_lp p.
  Proof.
    intros HC HR Hu Hn Hx H. unfold swap_exact_tokens_for_tokens in H. bstep H u Eu.
    bstep H u1 E1. bstep H u2 E2. bstep H amounts Ea. bstep H l El. bstep H u3 E3. bstep H s1 Es. injection H as -> _ _.
    pose proof (get_amounts_out_u128 R _ _ _ _ Hx Ea) as Hf.
    split; [eapply (swap_route_reachable R P); eauto | eapply swap_route_kprod; eauto].
  Qed.

  Lemma exact_out_reachable now s who r aout maxin s' a0 out :
    cfg_ok C -> amm_reachable C P s -> user C who -> 0 <= now -> u128_ok aout ->
    swap_tokens_for_exact_tokens R P now s who r aout maxin = Ok (s', a0, out) ->
    amm_reachable C P s' /\
    forall k p, pools s !! k = Some p -> exists p', pools s' !! k = Some p' /\ kprod p <= kprod p' /\ p_lp p' = p_lp p.
  Proof.
    intros HC HR Hu Hn Hx H. unfold swap_tokens_for_exact_tokens in H. bstep H u Eu.
    bstep H u1 E1. bstep H amounts Ea. bstep H l El. bstep H u2 E2. bstep H u3 E3. bstep H s1 Es. bstep H l1 El1. injection H as -> _ _.
    pose proof (get_amounts_in_u128 R _ _ _ _ Hx Ea) as Hf.
    split; [eapply (swap_route_reachable R P); eauto | eapply swap_route_kprod; eauto].
  Qed.

  (** ** exact output *)
  Lemma shortfall_bound aout ri ro ain out :
    cfg_ok C -> 0 <= aout -> 0 < ri -> 
    get_amount_in C aout ri ro = Ok ain -> get_amount_out C ain ri ro = Ok out -> aout <= out + ro / ri + 1.
  Proof.
    intros HC Ho Hri H1 H2. destruct (amount_in_core C _ _ _ _ HC Ho (Z.lt_le_incl _ _ Hri) H1) as (A1 & A2 & A3 & A4 & A5).
    apply get_amount_out_spec in H2. destruct H2 as (B1 & -> & B2).
    pose proof (div_gt_mul (ri * aout) (ro - aout) ltac:(lia)) as D.
    set (a := ri * aout / (ro - aout)) in *.
    assert (Hn : a <= net_in C ain). { rewrite net_in_floor. apply Z.div_le_lower_bound; [apply PMILL_pos|]. nia. }
    set (n := net_in C ain) in *. assert (0 < ri + n) by lia.
    pose proof (div_gt_mul (n * ro) (ri + n) ltac:(lia)) as Dy.
    pose proof (div_gt_mul ro ri ltac:(lia)) as Dq. assert (0 <= ro / ri) by (apply Z.div_pos; lia).
    set (y := n * ro / (ri + n)) in *. set (q := ro / ri) in *.
    assert (ri * aout < (n + 1) * (ro - aout)) by nia.
    destruct (decide (aout <= y + q + 1)); [auto|]. exfalso.
    assert ((y + q + 2) * (ri + n + 1) <= aout * (ri + n + 1)) by (apply Z.mul_le_mono_nonneg_r; lia). nia.
  Qed.

  Lemma moves_notin r : forall amts outs a, a ∉ r -> moves r amts outs a = 0.
  Proof.
    induction r as [|t r IH]; intros amts outs a Ha; [reflexivity|].
    destruct r as [|u r]; [reflexivity|]. destruct amts as [|x amts]; [reflexivity|]. destruct outs as [|y outs]; [reflexivity|].
    rewrite moves_cons. apply not_elem_of_cons in Ha as [H1 H2]. rewrite IH by auto.
    apply not_elem_of_cons in H2 as [H2 _]. rewrite !bool_decide_false by auto. lia.
  Qed.

  Lemma moves_at r : forall amts outs i a,
    length amts = length r -> length outs = pred (length r) -> NoDup r -> r !! i = Some a ->
    moves r amts outs a =
      (match i with O => 0 | S j => default 0 (outs !! j) end) -
      (if decide (S i = length r) then 0 else default 0 (amts !! i)).
  Proof.
    induction r as [|t r IH]; intros amts outs i a H1 H2 Hnd Hi; [discriminate|].
    destruct r as [|u r].
    { destruct i; [|discriminate]. rewrite decide_True by reflexivity. cbn. lia. }
    destruct amts as [|x amts]; [discriminate|]. destruct outs as [|y outs]; [discriminate|].
    rewrite moves_cons. apply NoDup_cons in Hnd as [Hna Hnd].
    destruct i as [|i].
    - cbn in Hi. injection Hi as <-. rewrite moves_notin by auto. rewrite bool_decide_false, bool_decide_true; auto.
      + destruct (decide _) as [E|E]; [cbn in E; lia|]. cbn. lia.
      + intros ->. apply Hna. constructor.
    - cbn in Hi. assert (a <> t). { intros ->. apply Hna. eapply elem_of_list_lookup_2. exact Hi. }
      rewrite (bool_decide_false (a = t)) by auto.
      rewrite (IH amts outs i a); auto.
      replace (if decide (S (S i) = length (t :: u :: r)) then 0 else default 0 ((x :: amts) !! S i))
        with (if decide (S i = length (u :: r)) then 0 else default 0 (amts !! i))
        by (cbn; repeat destruct (decide _); try lia; reflexivity).
      generalize (if decide (S i = length (u :: r)) then 0 else default 0 (amts !! i)). intros D.
      destruct i as [|i].
      + cbn in Hi. injection Hi as <-. rewrite bool_decide_true by auto. cbn. lia.
      + apply NoDup_cons in Hnd as [Hnu _]. rewrite bool_decide_false; [change ((y :: outs) !! S i) with (outs !! i); lia|].
        intros ->. apply Hnu. eapply elem_of_list_lookup_2. exact Hi.
  Qed.

  Lemma get_amounts_in_at ps aout r : forall l, get_amounts_in C ps aout r = Ok l ->
    forall i a b, r !! i = Some a -> r !! S i = Some b ->
    exists x x' ri ro, l !! i = Some x /\ l !! S i = Some x' /\ get_reserves ps a b = Ok (ri, ro) /\ get_amount_in C x' ri ro = Ok x.
  Proof.
    induction r as [|t r IH]; intros l H i a b Ha Hb; [discriminate|].
    cbn [get_amounts_in] in H. destruct r as [|u r]; [destruct i; discriminate|].
    bstep H ins Ei. bstep H y E. destruct y as [ri ro]. bstep H x Eo. injection H as <-.
    destruct i as [|i].
    - cbn in Ha, Hb. injection Ha as <-. injection Hb as <-.
      destruct (get_amounts_in_len R _ _ _ _ Ei) as [Hl _]. destruct ins as [|x' ins]; [discriminate|].
      exists x, x', ri, ro. repeat split; auto.
    - destruct (IH ins Ei i a b Ha Hb) as (z & z' & ? & ? & ? & ? & ? & ?). exists z, z'. eauto 8.
  Qed.

  (** full effect of an exact-output trade *)
  Lemma exact_out_full now s who r aout maxin s' a0 out :
    cfg_ok C -> amm_reachable C P s -> user C who -> 0 <= now -> u128_ok aout ->
    swap_tokens_for_exact_tokens R P now s who r aout maxin = Ok (s', a0, out) ->
    r <> [] /\ Z.of_nat (length r) <= max_len R /\ NoDup r /\ 0 < aout /\ out = aout /\ a0 <= maxin /\
    (forall a, (2 <= length r)%nat -> head r = Some a -> bal (led s') a who = bal (led s) a who - a0) /\
    (forall a, length r = 1%nat -> bal (led s') a who = bal (led s) a who) /\
    (forall a, a ∉ r -> bal (led s') a who = bal (led s) a who) /\
    (forall a w, w <> who -> w <> amm_acct C -> bal (led s') a w = bal (led s) a w) /\
    (forall i a b, r !! i = Some a -> r !! S i = Some b ->
       exists ri ro, get_reserves (pools s) a b = Ok (ri, ro) /\
         (S (S i) = length r -> bal (led s) b who + aout - (ro / ri + 1) <= bal (led s') b who) /\
         (S (S i) <> length r -> bal (led s) b who - (ro / ri + 1) <= bal (led s') b who)).
  Proof.
    intros HC HR [Hu1 Hu2] Hn Hx H. pose proof H as H0. unfold swap_tokens_for_exact_tokens in H. bstep H u Eu.
    apply route_checks_ok in Eu as (H1 & H2 & H3).
    bstep H u1 E1. apply andb_prop in E1 as [E1 _]. bstep H amounts Ea. bstep H l El. bstep H u2 E2. bstep H u3 E3.
    bstep H s1 Es. bstep H l1 El1. injection H as -> -> ->.
    destruct (get_amounts_in_len R _ _ _ _ Ea) as [Hlen Hla].
    assert (out = aout) by congruence. subst out.
    destruct (swap_route_effect R P now (pools s) who r s amounts s' Hu1 H3 ltac:(auto) Es)
      as (outs & Hlo & Hq & B1 & B2 & B3 & Hi & Hk).
    pose proof (get_amounts_in_u128 R _ _ _ _ Hx Ea) as Hf.
    repeat (split; [solve [auto; lia]|]).
    split.
    { intros a Hl2 Ha. rewrite B1. destruct r as [|t r]; [discriminate|]. injection Ha as ->.
      rewrite (moves_at _ _ _ 0%nat a Hlen Hlo H3 eq_refl). destruct (decide _) as [E|E]; [cbn in E, Hl2; lia|].
      destruct amounts; [discriminate|]. cbn in El |- *. injection El as ->. lia. }
    split.
    { intros a Hl1. rewrite B1. destruct r as [|t [|t2 r]]; try discriminate. cbn. lia. }
    split; [intros a Ha; rewrite B1, moves_notin by auto; lia|].
    split; [auto|].
    intros i a b Ha Hb.
    destruct (get_amounts_in_at _ _ _ _ Ea i a b Ha Hb) as (x & x' & ri & ro & Hxi & Hxi' & Hr & Hg).
    destruct (Hq i a b x Ha Hb Hxi) as (y & ri' & ro' & Hy & Hr' & Hg').
    rewrite Hr in Hr'. injection Hr' as <- <-. exists ri, ro. split; auto.
    assert (0 < ri).
    { destruct (get_reserves_spec _ _ _ _ _ Hr) as (p & Hp & Hne & -> & ->).
      pose proof (inv_pos C s (reachable_inv C P s HC HR) _ _ Hp). unfold reserve.
      repeat case_bool_decide; unfold pair_key in *; cbn in *; lia. }
    assert (Hx' : 0 <= x'). { rewrite Forall_lookup in Hf. apply (Hf _ _ Hxi'). }
    pose proof (shortfall_bound x' ri ro x y HC Hx' ltac:(lia) Hg Hg') as Hsf.
    split; intros HSi; rewrite B1, (moves_at _ _ _ (S i) b Hlen Hlo H3 Hb); rewrite Hy; cbn [default from_option].
    - rewrite decide_True by auto. assert (x' = aout).
      { rewrite last_lookup, Hlen, <- HSi in Hla. cbn in Hla. congruence. }
      cbn. lia.
    - rewrite decide_False by auto. rewrite Hxi'. cbn. lia.
  Qed.
End proofs.
