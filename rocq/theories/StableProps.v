(** * StableProps: properties of the StableSwap AMM (pallets/stableswap), C120-C128. *)
From Verif Require Import Base MapSum Ledger AmmModel AmmSpec AmmProofs AmmInv AmmProofs4 AmmProofs5 AmmEx StableModel StableSpec StableProofs StableProofs2 StableEx StableProofs3.

(** ** C120.  Solvency: in every reachable state the pallet account holds, of every asset, at least the sum of the reserves recorded by all
    pools, and recorded reserves are u128 values. *)
Theorem C120_solvent C P s : ss_cfg_ok C -> ss_reachable C P s -> ss_solvent C s.
Proof. intros HC R. apply (si_solv C s), (ss_reach_inv C P); auto. Qed.
Print Assumptions C120_solvent.
Theorem C120_reserves_fit C P s k p :
  ss_cfg_ok C -> ss_reachable C P s -> ss_pools s !! k = Some p -> u128_ok (p_base p) /\ u128_ok (p_quote p).
Proof. intros HC R. apply (si_pos C s), (ss_reach_inv C P); auto. Qed.
Print Assumptions C120_reserves_fit.
Example C120_example :
  ss_cfg_ok stC /\ ss_reachable stC allow_all st1 /\
  someb (ss_pools st1 !! (200, 100)) (fun p => (p_base p =? 1395084) && (p_quote p =? 1423225)) = true /\
  bal (ss_led st1) 200 1 = 1395084.
Proof. split; [apply stC_ok|]. split; [apply st1_reach|]. split; vm_compute; reflexivity. Qed.

(** ** C121.  A trade moves exactly what it says: the trader pays [amt] of the input asset and receives [out] of the output asset, both
    against the pallet account; the reserves move by the same amounts, no other pool and no other balance changes, and the quote for the
    one-hop route made just before is exactly [out]. *)
Theorem C121_swap_exact C P now s who ai ao amt out s' :
  ss_swap C P now s who (ai, ao) amt = Ok (out, s') ->
  exists p p', let k := pair_key ai ao in
    ai <> ao /\ ss_pools s !! k = Some p /\ ss_pools s' = <[k := p']> (ss_pools s) /\ p_lp p' = p_lp p /\
    0 <= out <= reserve k p ao /\
    reserve k p' ai = reserve k p ai + amt /\ reserve k p' ao = reserve k p ao - out /\
    (forall x w, bal (ss_led s') x w = bal (ss_led s) x w - at_ ai who x w amt + at_ ai (ss_acct C) x w amt
        + at_ ao who x w out - at_ ao (ss_acct C) x w out) /\
    (forall x, iss (ss_led s') x = iss (ss_led s) x) /\
    ss_amounts_out C (ss_pools s) amt [ai; ao] = Ok [amt; out].
Proof.
  intros H. pose proof (ss_quote_is_swap _ _ _ _ _ _ _ _ _ _ H) as Q.
  apply ss_swap_spec in H as (p & p1 & p2 & L1 & L2 & H). cbv zeta in H.
  destruct H as (Hne & Hp & -> & _ & _ & _ & _ & Hr & T1 & T2 & Hlp & Ho & Hn & _).
  apply transfer_spec in T1 as (B1 & I1 & _). apply transfer_spec in T2 as (B2 & I2 & _).
  exists p, p2. cbv zeta. cbn [ss_pools ss_set ss_led].
  split; [auto|]. split; [auto|]. split; [auto|]. split; [auto|]. split; [lia|].
  split. { rewrite Hr, bool_decide_true, bool_decide_false by auto. lia. }
  split. { rewrite Hr, bool_decide_false, bool_decide_true by auto. lia. }
  split. { intros x w. rewrite B2, B1. lia. }
  split; [|exact Q]. intros x. rewrite I2, I1. reflexivity.
Qed.
Print Assumptions C121_swap_exact.
Example C121_example : okb (ss_swap stC allow_all 9 st1 11 (200, 100) 10000) (fun r => (9900 <? r.1) && (r.1 <? 10100)) = true.
Proof. vm_compute. reflexivity. Qed.

(** ** C122.  The price of a trade.  A StableSwap trade of [amt] (net of fees) into reserves x (in) and y (out) should pay the [out] that
    keeps the invariant D: the pair (x + net, y - out).  The code keeps the invariant of (x - out, y + net) instead: it deposits the
    input into the *output* asset's reserve and pays the difference of the *input* asset's.  Proved: within 4 units, that is what it
    computes.  Refuted: that it prices the trade. *)
Theorem C122_price_partial C amt x y d out :
  ss_cfg_ok C -> 1 <= ss_amp C -> 0 <= amt -> 0 < y ->
  compute_d x y (ss_amp C) = Ok d -> 24 * ss_amp C <= d -> d * d * d <= 4 * U128MAX ->
  ss_amount_out C amt x y = Ok out -> out < x ->
  let net := amt - (ss_lp_fee C + ss_pfee C) * amt / PMILL in
  d <= 2 * (y + net) ->
  0 <= net /\ curve_gap (ss_amp C) (y + net) (x - out + 4) d <= 0 <= curve_gap (ss_amp C) (y + net) (x - out - 3) d.
Proof. intros (HC1 & HC2 & _). intros. eapply ss_amount_out_price; eauto; lia. Qed.
Print Assumptions C122_price_partial.
Example C122_price_example :
  compute_d 1395084 1423225 85 = Ok 2818308 /\ okb (ss_amount_out stC 10000 1395084 1423225) (fun out => out =? 9969) = true /\
  24 * 85 <= 2818308 /\ 2818308 * 2818308 * 2818308 <= 4 * U128MAX.
Proof. split; [vm_compute; reflexivity|]. split; [vm_compute; reflexivity|]. split; vm_compute; discriminate. Qed.
(** On a pool too large for the u128 division in [compute_d] every trade, however small, pays out the whole reserve of the input asset
    (in units of the output asset). *)
Theorem C122_large_pool_pays_reserve C P now s who ai ao amt out s' p :
  ss_cfg_ok C -> ss_reachable C P s -> 1 <= ss_amp C -> 0 <= amt -> ss_pools s !! pair_key ai ao = Some p ->
  U128MAX < 4 * ss_amp C * (p_base p + p_quote p) * (p_base p + p_quote p) ->
  ss_swap C P now s who (ai, ao) amt = Ok (out, s') -> out = reserve (pair_key ai ao) p ai.
Proof. intros HC R. apply ss_swap_overflow; auto. apply (ss_reach_inv C P); auto. Qed.
Print Assumptions C122_large_pool_pays_reserve.
(** Refuted: 400 units of asset 100 (4e-10 tokens) buy 10^18 units (a million tokens) of asset 200. *)
Theorem C122_price_refuted :
  exists C P s now who ai ao out s', ss_cfg_ok C /\ ss_reachable C P s /\ ss_user C who /\
    ss_swap C P now s who (ai, ao) 400 = Ok (out, s') /\ out = 10 ^ 18.
Proof.
  exists stC, allow_all, st5, 9, 11, 100, 200.
  assert (A : okb (ss_swap stC allow_all 9 st5 11 (100, 200) 400) (fun r => r.1 =? 10 ^ 18) = true) by (vm_compute; reflexivity).
  destruct (ss_swap stC allow_all 9 st5 11 (100, 200) 400) as [[out s']| |] eqn:E; [|discriminate A|discriminate A].
  exists out, s'. split; [apply stC_ok|]. split; [apply st5_reach|]. split; [split; discriminate|]. split; [reflexivity|].
  cbn in A. apply Z.eqb_eq in A. exact A.
Qed.
Print Assumptions C122_price_refuted.
(** Refuted also on small pools: the pool holds seven times more of asset 200 than of asset 100, and still selling asset 200 for asset 100
    pays more units of the scarce asset 100 than were paid in. *)
Theorem C122_scarce_asset_is_cheap_refuted :
  exists C P s p now who out s', ss_cfg_ok C /\ ss_reachable C P s /\ ss_user C who /\
    ss_pools s !! pair_key 200 100 = Some p /\ 6 * reserve (200, 100) p 100 < reserve (200, 100) p 200 /\
    ss_swap C P now s who (200, 100) 125459 = Ok (out, s') /\ 125459 < out.
Proof.
  assert (A : okb (ss_swap stC allow_all 9 st2 11 (200, 100) 125459) (fun r => r.1 =? 128800) = true) by (vm_compute; reflexivity).
  assert (B : someb (ss_pools st2 !! (200, 100)) (fun p => 6 * reserve (200, 100) p 100 <? reserve (200, 100) p 200) = true) by (vm_compute; reflexivity).
  apply someb_spec in B as (p & Hp & B).
  destruct (ss_swap stC allow_all 9 st2 11 (200, 100) 125459) as [[out s']| |] eqn:E; [|discriminate A|discriminate A].
  exists stC, allow_all, st2, p, 9, 11, out, s'. split; [apply stC_ok|]. split; [apply st2_reach|]. split; [split; discriminate|].
  split; [exact Hp|]. split; [apply Z.ltb_lt; exact B|]. split; [exact E|]. cbn in A. apply Z.eqb_eq in A. lia.
Qed.
Print Assumptions C122_scarce_asset_is_cheap_refuted.
(** Refuted: that a trader cannot gain by trading back and forth. *)
Theorem C122_round_trip_refuted :
  exists C P s s1 s2 who b c, ss_cfg_ok C /\ ss_reachable C P s /\ ss_user C who /\
    ss_swap C P 9 s who (100, 200) 1000 = Ok (b, s1) /\ ss_swap C P 9 s1 who (200, 100) b = Ok (c, s2) /\ 10 ^ 8 * 1000 < c.
Proof.
  assert (A : okb (ss_swap stC allow_all 9 st4 11 (100, 200) 1000) (fun r =>
    okb (ss_swap stC allow_all 9 r.2 11 (200, 100) r.1) (fun q => 10 ^ 8 * 1000 <? q.1)) = true) by (vm_compute; reflexivity).
  destruct (ss_swap stC allow_all 9 st4 11 (100, 200) 1000) as [[b s1]| |] eqn:E; [|discriminate A|discriminate A].
  cbn [okb fst snd] in A. destruct (ss_swap stC allow_all 9 s1 11 (200, 100) b) as [[c s2]| |] eqn:E2; [|discriminate A|discriminate A].
  exists stC, allow_all, st4, s1, s2, 11, b, c. split; [apply stC_ok|]. split; [apply st4_reach|]. split; [split; discriminate|].
  split; [exact E|]. split; [exact E2|]. cbn [okb fst] in A. apply Z.ltb_lt in A. exact A.
Qed.
Print Assumptions C122_round_trip_refuted.

(** ** C123.  The value D of a pool.  When it is computed (positive, and its powers fit the u128 divisions), it is Curve's D within 5 units;
    a balanced pool of x and x is worth exactly 2x.  Refuted: the same for pools of any size - a larger pool is worth 0. *)
Theorem C123_value_partial x y amp D :
  1 <= amp -> 0 < x -> 0 < y -> 2 * x <= U128MAX -> 2 * y <= U128MAX ->
  compute_d x y amp = Ok D -> 0 < D -> x <= D ->
  (D + 1) * (D + 1) <= U128MAX -> (D + 1) * (D + 1) * (D + 1) <= 2 * x * U128MAX ->
  curve_gap amp x y (D - 5) <= 0 < curve_gap amp x y (D + 3).
Proof. apply compute_d_accurate. Qed.
Print Assumptions C123_value_partial.
Theorem C123_balanced x amp :
  1 <= amp -> 0 <= x -> 4 * (2 * amp + 1) * x * (2 * x) <= U128MAX -> compute_d x x amp = Ok (2 * x).
Proof. apply compute_d_balanced. Qed.
Print Assumptions C123_balanced.
Theorem C123_large_pool_refuted x y amp :
  1 <= amp <= 255 -> 0 <= x -> 0 <= y -> U128MAX < 4 * amp * (x + y) * (x + y) -> compute_d x y amp = Ok 0.
Proof. apply compute_d_overflow. Qed.
Print Assumptions C123_large_pool_refuted.
Example C123_example :
  compute_d 1395084 1423225 85 = Ok 2818308 /\ compute_d 1751707 250919 85 = Ok 1995207 /\
  4 * (2 * 85 + 1) * 10 ^ 16 * (2 * 10 ^ 16) <= U128MAX /\ U128MAX < 4 * 85 * (10 ^ 18 + 10 ^ 18) * (10 ^ 18 + 10 ^ 18).
Proof. split; [vm_compute; reflexivity|]. split; [vm_compute; reflexivity|]. split; [vm_compute; discriminate|vm_compute; reflexivity]. Qed.

(** ** C124.  Adding liquidity takes between the minimum and the desired amount of each asset and mints exactly
    share + share * (D' - D) / D LP tokens, where share is the pro-rata share of the supply (after the protocol's fee tokens) and D, D' are
    the values before and after. *)
Theorem C124_add_exact C P s who a b desired minimum s' :
  ss_cfg_ok C -> ss_reachable C P s -> ss_user C who -> u128_ok desired.1 -> u128_ok desired.2 ->
  ss_add C P s who (a, b) desired minimum = Ok s' ->
  exists p p' ta tb fee d0 d1 minted, let k := pair_key a b in let lp := p_lp p in let T := iss (ss_led s) lp + fee in
    a <> b /\ ss_pools s !! k = Some p /\ ss_pools s' = <[k := p']> (ss_pools s) /\ p_lp p' = lp /\
    minimum.1 <= ta <= desired.1 /\ minimum.2 <= tb <= desired.2 /\ 0 <= ta /\ 0 <= tb /\
    reserve k p' a = reserve k p a + ta /\ reserve k p' b = reserve k p b + tb /\
    compute_d (p_base p) (p_quote p) (ss_amp C) = Ok d0 /\ compute_d (p_base p') (p_quote p') (ss_amp C) = Ok d1 /\
    0 < d0 <= d1 /\ 0 <= fee /\ (ss_pfee C = 0 -> fee = 0) /\
    (let share := Z.min (ta * T / reserve k p a) (tb * T / reserve k p b) in
     minted = share + share * (d1 - d0) / d0) /\
    iss (ss_led s') lp = T + minted /\
    (forall x w, bal (ss_led s') x w = bal (ss_led s) x w + at_ lp (ss_receiver C) x w fee + at_ lp who x w minted
       - at_ a who x w ta + at_ a (ss_acct C) x w ta - at_ b who x w tb + at_ b (ss_acct C) x w tb).
Proof. intros HC R. apply ss_add_exact; auto. apply (ss_reach_inv C P); auto. Qed.
Print Assumptions C124_add_exact.
(** pool creation mints the geometric mean, MinimumLiquidity of it to the lock account *)
Theorem C124_create_exact C P s o a b amts r lp s' :
  u128_ok amts.1 -> u128_ok amts.2 -> ss_create C P s o (a, b) amts r lp = Ok s' ->
  exists p, let k := pair_key a b in
    ss_origin C o = true /\ a <> b /\ ss_pools s !! k = None /\ iss (ss_led s) lp = 0 /\
    ss_pools s' = <[k := p]> (ss_pools s) /\ p_lp p = lp /\ reserve k p a = amts.1 /\ reserve k p b = amts.2 /\
    iss (ss_led s') lp = Z.sqrt (amts.1 * amts.2) /\ ss_min_liq C <= Z.sqrt (amts.1 * amts.2) /\
    (forall x w, bal (ss_led s') x w = bal (ss_led s) x w
       + at_ lp r x w (Z.sqrt (amts.1 * amts.2) - ss_min_liq C) + at_ lp (ss_lock C) x w (ss_min_liq C)
       - at_ a r x w amts.1 + at_ a (ss_acct C) x w amts.1 - at_ b r x w amts.2 + at_ b (ss_acct C) x w amts.2).
Proof. apply ss_create_exact. Qed.
Print Assumptions C124_create_exact.
Example C124_example :
  okb (ss_add stC allow_all st1 11 (100, 200) (10000, 10000) (1, 1)) (fun s' => 9900 <? bal (ss_led s') 900 11 - bal (ss_led st1) 900 11) = true /\
  okb (ss_create stC allow_all st0 Root (100, 200) (1000000, 4000000) 10 900) (fun s' => (bal (ss_led s') 900 10 =? 1999000) && (bal (ss_led s') 900 2 =? 1000)) = true.
Proof. split; vm_compute; reflexivity. Qed.
(** Refuted: that depositors share fairly.  Doubling a pool of one million each mints twice (not once) the supply to the newcomer, who
    leaves right away with 1333333 of each asset for the 1000000 he brought - at the first depositor's cost. *)
Theorem C124_fair_share_refuted :
  exists C P s s1 s2 who lp, ss_cfg_ok C /\ ss_reachable C P s /\ ss_user C who /\ bal (ss_led s) lp who = 0 /\
    ss_add C P s who (100, 200) (1000000, 1000000) (1000000, 1000000) = Ok s1 /\
    ss_remove C P s1 who (100, 200) (bal (ss_led s1) lp who) = Ok s2 /\
    bal (ss_led s2) 100 who = bal (ss_led s) 100 who + 333333 /\ bal (ss_led s2) 200 who = bal (ss_led s) 200 who + 333333.
Proof.
  assert (A : okb (ss_add stC allow_all st6 11 (100, 200) (1000000, 1000000) (1000000, 1000000)) (fun s1 =>
    okb (ss_remove stC allow_all s1 11 (100, 200) (bal (ss_led s1) 900 11)) (fun s2 =>
      (bal (ss_led s2) 100 11 =? bal (ss_led st6) 100 11 + 333333) && (bal (ss_led s2) 200 11 =? bal (ss_led st6) 200 11 + 333333))) = true)
    by (vm_compute; reflexivity).
  assert (B : bal (ss_led st6) 900 11 = 0) by (vm_compute; reflexivity).
  destruct (ss_add stC allow_all st6 11 (100, 200) (1000000, 1000000) (1000000, 1000000)) as [s1| |] eqn:E1; [|discriminate A|discriminate A].
  cbn [okb] in A. destruct (ss_remove stC allow_all s1 11 (100, 200) (bal (ss_led s1) 900 11)) as [s2| |] eqn:E2; [|discriminate A|discriminate A].
  exists stC, allow_all, st6, s1, s2, 11, 900. cbn [okb] in A. apply andb_prop in A as [A1 A2]. apply Z.eqb_eq in A1, A2.
  split; [apply stC_ok|]. split; [apply st6_reach|]. split; [split; discriminate|]. split; [exact B|]. split; [exact E1|].
  split; [exact E2|]. split; [exact A1|exact A2].
Qed.
Print Assumptions C124_fair_share_refuted.

(** ** C125.  Removing liquidity burns [l] LP tokens of the caller, at most what he holds, and pays exactly the pro-rata share of both
    reserves, rounded down. *)
Theorem C125_remove_exact C P s who a b l s' :
  ss_remove C P s who (a, b) l = Ok s' ->
  exists p p' fee ra rb, let k := pair_key a b in let lp := p_lp p in let T := iss (ss_led s) lp + fee in
    a <> b /\ ss_pools s !! k = Some p /\ ss_pools s' = <[k := p']> (ss_pools s) /\ p_lp p' = lp /\
    0 <= l /\ 0 <= fee /\ (ss_pfee C = 0 -> fee = 0) /\
    (0 < l -> l <= bal (ss_led s) lp who + (if bool_decide (who = ss_receiver C) then fee else 0)) /\
    ra = l * reserve k p a / T /\ rb = l * reserve k p b / T /\
    reserve k p' a = reserve k p a - ra /\ reserve k p' b = reserve k p b - rb /\
    iss (ss_led s') lp = T - l /\
    (forall x w, bal (ss_led s') x w = bal (ss_led s) x w + at_ lp (ss_receiver C) x w fee - at_ lp who x w l
       + at_ a who x w ra - at_ a (ss_acct C) x w ra + at_ b who x w rb - at_ b (ss_acct C) x w rb).
Proof. apply ss_remove_exact. Qed.
Print Assumptions C125_remove_exact.
(** the protocol's part: nothing unless the value D grew since the last deposit or withdrawal; otherwise growth / (D (n - 1) + D_last) of
    the supply, where 1/n is the protocol's part of all fees *)
Theorem C125_protocol_fee_exact C P L p f p' L' :
  ss_fee_on C = true -> ss_mint_fee C P L p = Ok (f, p', L') ->
  exists d0 d1, compute_d (p_base_last p) (p_quote_last p) (ss_amp C) = Ok d0 /\ compute_d (p_base p) (p_quote p) (ss_amp C) = Ok d1 /\
    (d1 <= d0 /\ f = 0 \/
     d0 < d1 /\ exists n, ss_fee_recip C = Ok n /\ 1 <= n /\ f = (d1 - d0) * iss L (p_lp p) / (d1 * (n - 1) + d0)).
Proof. apply ss_mint_fee_exact. Qed.
Print Assumptions C125_protocol_fee_exact.
Example C125_example :
  okb (ss_remove stC allow_all st1 11 (100, 200) 100000) (fun s' =>
    (0 <? bal (ss_led s') 100 11 - bal (ss_led st1) 100 11) && (0 <? bal (ss_led s') 200 11 - bal (ss_led st1) 200 11)) = true /\
  ss_fee_recip stC = Ok 6.
Proof. split; vm_compute; reflexivity. Qed.

(** ** C126.  Providers can leave: a holder of LP tokens can redeem any part of them, as long as D of the present and of the last recorded
    reserves can be computed.  Partial: that is not always so, see the refutation. *)
Theorem C126_providers_can_leave_partial C P s who a b l p :
  ss_cfg_ok C -> ss_reachable C P s -> lenient P -> ss_user C who -> a <> b -> ss_pools s !! pair_key a b = Some p ->
  0 <= l <= bal (ss_led s) (p_lp p) who ->
  (ss_pfee C <> 0 -> ss_pfee C <= ss_lp_fee C /\ ss_pfee C + ss_lp_fee C <= PMILL /\
    (exists d0, compute_d (p_base_last p) (p_quote_last p) (ss_amp C) = Ok d0) /\
    (exists d1, compute_d (p_base p) (p_quote p) (ss_amp C) = Ok d1) /\
    2 * iss (ss_led s) (p_lp p) <= U128MAX) ->
  exists s', ss_remove C P s who (a, b) l = Ok s'.
Proof.
  intros HC R LP U Hne Hp Hl Hf. pose proof (ss_reach_inv C P s HC R) as I.
  destruct (Z.eq_dec (ss_pfee C) 0) as [E0|E0].
  - apply (ss_remove_prog C P s who a b l p 0 0); auto. intros X. contradiction.
  - destruct (Hf E0) as (F1 & F2 & [d0 F3] & [d1 F4] & F5). apply (ss_remove_prog C P s who a b l p d0 d1); auto.
Qed.
Print Assumptions C126_providers_can_leave_partial.
Example C126_example :
  someb (ss_pools st1 !! (200, 100)) (fun p => okb (compute_d (p_base_last p) (p_quote_last p) 85) (fun d => 0 <? d)) = true /\
  2 * iss (ss_led st1) 900 <= U128MAX /\ 0 < bal (ss_led st1) 900 10.
Proof. split; [vm_compute; reflexivity|]. split; [vm_compute; discriminate|vm_compute; reflexivity]. Qed.
(** Refuted: after three trades on a pool created with one million of each asset, D cannot be computed and every withdrawal and every
    deposit, by anybody and of any amount, panics, although LP tokens are outstanding. *)
Theorem C126_providers_trapped_refuted :
  exists C s, ss_cfg_ok C /\ ss_reachable C allow_all s /\ 0 < bal (ss_led s) 900 10 /\
    (exists p, ss_pools s !! pair_key 100 200 = Some p /\ p_lp p = 900 /\ p_base p = 1997913 /\ p_quote p = 3) /\
    forall P who l s' d m, ss_remove C P s who (100, 200) l <> Ok s' /\ ss_add C P s who (100, 200) d m <> Ok s'.
Proof.
  assert (A : someb (ss_pools st3 !! (200, 100)) (fun p => (p_lp p =? 900) && (p_base p =? 1997913) && (p_quote p =? 3)
    && (p_base_last p =? 1000000) && (p_quote_last p =? 1000000)) = true) by (vm_compute; reflexivity).
  apply someb_spec in A as (p & Hp & A). repeat (apply andb_prop in A as [A ?]).
  repeat match goal with H : (_ =? _) = true |- _ => apply Z.eqb_eq in H end.
  exists stC, st3. split; [apply stC_ok|]. split; [apply st3_reach|]. split; [vm_compute; reflexivity|].
  split; [exists p; auto|].
  assert (F : forall P, ss_mint_fee stC P (ss_led st3) p = Panic).
  { intros P. unfold ss_mint_fee. replace (ss_fee_on stC) with true by reflexivity. cbn [negb].
    unfold delta. replace (p_base p) with 1997913 by auto. replace (p_quote p) with 3 by auto.
    replace (p_base_last p) with 1000000 by auto. replace (p_quote_last p) with 1000000 by auto.
    replace (compute_d 1000000 1000000 (ss_amp stC)) with (Ok 2000000) by (vm_compute; reflexivity).
    replace (compute_d 1997913 3 (ss_amp stC)) with (@Err Z "could not compute d") by (vm_compute; reflexivity). reflexivity. }
  intros P who l s' d m. split; intros X.
  - unfold ss_remove in X. rewrite sort_assets_ok in X by lia. cbn [rbind] in X. change (Z.max 100 200, Z.min 100 200) with (200, 100) in X.
    rewrite Hp in X. cbn [ok_or rbind] in X. rewrite F in X. discriminate X.
  - unfold ss_add in X. rewrite sort_assets_ok in X by lia. cbn [rbind] in X. change (Z.max 100 200, Z.min 100 200) with (200, 100) in X.
    destruct (if 100 <? 200 then _ else _) as [x1 x2]. destruct (if 100 <? 200 then _ else _) as [x3 x4].
    rewrite Hp in X. cbn [ok_or rbind] in X. bstep X x5 E5. destruct x5 as [x5 x6]. bstep X u1 Eu1. bstep X u2 Eu2.
    rewrite F in X. discriminate X.
Qed.
Print Assumptions C126_providers_trapped_refuted.
(** and on a pool too large for [compute_d] nobody can add liquidity *)
Theorem C126_large_pool_closed_refuted C P s who a b desired minimum p :
  ss_cfg_ok C -> ss_reachable C P s -> ss_user C who -> u128_ok desired.1 -> u128_ok desired.2 -> 1 <= ss_amp C ->
  ss_pools s !! pair_key a b = Some p ->
  U128MAX < 4 * ss_amp C * (p_base p + p_quote p) * (p_base p + p_quote p) ->
  forall s', ss_add C P s who (a, b) desired minimum <> Ok s'.
Proof. intros HC R. apply ss_add_stuck; auto. apply (ss_reach_inv C P); auto. Qed.
Print Assumptions C126_large_pool_closed_refuted.
Example C126_large_pool_example :
  ss_reachable stC allow_all st5 /\ someb (ss_pools st5 !! pair_key 100 200) (fun p =>
    U128MAX <? 4 * 85 * (p_base p + p_quote p) * (p_base p + p_quote p)) = true.
Proof. split; [apply st5_reach|vm_compute; reflexivity]. Qed.

(** ** C127.  Pools: only CreatePoolOrigin creates one, at most one per pair of assets (in either order), with an LP token that had no
    supply before and that no other pool uses; a pool never disappears nor changes its LP token; MinimumLiquidity LP tokens stay locked. *)
Theorem C127_create_gated C P s o a b amts r lp s' :
  ss_create C P s o (a, b) amts r lp = Ok s' ->
  ss_origin C o = true /\ a <> b /\ ss_pool s a b = None /\ ss_pool s b a = None /\ iss (ss_led s) lp = 0 /\
  exists p, ss_pool s' a b = Some p /\ ss_pool s' b a = Some p /\ p_lp p = lp.
Proof.
  intros H. apply ss_create_spec in H as (p & L & H). cbv zeta in H. destruct H as (Ho & Hne & Hn & Hi & Hadd & ->).
  unfold ss_pool. rewrite (pair_key_comm b a). cbn [ss_pools ss_set]. rewrite lookup_insert.
  repeat (split; [assumption|]). exists p. repeat (split; [reflexivity|]).
  destruct (sorted_amounts a b amts) as [ib iq] eqn:E. unfold pair_key in Hadd. unfold ss_do_add in Hadd.
  bstep Hadd d0 E0. bstep Hadd x E1. destruct x as [lq L1]. bstep Hadd nb E2. bstep Hadd nq E3. bstep Hadd d1 E4. bstep Hadd l2 E5.
  bstep Hadd L2 E6. bstep Hadd L3 E7. bstep Hadd L4 E8. injection Hadd as <- <-. destruct (ss_fee_on C); reflexivity.
Qed.
Print Assumptions C127_create_gated.
Theorem C127_lp_tokens_unique C P s k1 k2 p1 p2 :
  ss_cfg_ok C -> ss_reachable C P s -> ss_pools s !! k1 = Some p1 -> ss_pools s !! k2 = Some p2 ->
  (p_lp p1 = p_lp p2 -> k1 = k2) /\ ss_min_liq C <= bal (ss_led s) (p_lp p1) (ss_lock C).
Proof.
  intros HC R H1 H2. pose proof (ss_reach_inv C P s HC R) as I. split; [apply (si_uniq C s I k1 p1 k2 p2); auto|apply (si_lock C s I k1 p1); auto].
Qed.
Print Assumptions C127_lp_tokens_unique.
Theorem C127_pools_persist C P s os s' k p :
  ss_history C P s os s' -> ss_pools s !! k = Some p -> exists p', ss_pools s' !! k = Some p' /\ p_lp p' = p_lp p.
Proof.
  intros H. revert k p. induction H as [s|s o os s' Hok H IH]; intros k p Hp; [eauto|].
  assert (G : exists p1, ss_pools (ss_exec C P s o) !! k = Some p1 /\ p_lp p1 = p_lp p).
  { unfold ss_exec. destruct (ss_step C P s o) as [s1| |] eqn:E; [|eauto|eauto]. eapply ss_step_pools; eauto. }
  destruct G as (p1 & G1 & G2). destruct (IH k p1 G1) as (p' & G3 & G4). exists p'. split; [auto|]. congruence.
Qed.
Print Assumptions C127_pools_persist.
Example C127_example :
  okb (ss_create stC allow_all st0 Root (100, 200) (1000000, 1000000) 10 900) (fun _ => true) = true /\
  ss_create stC allow_all st0 (Signed 10) (100, 200) (1000000, 1000000) 10 900 = Err "BadOrigin" /\
  ss_create stC allow_all st1 Root (200, 100) (1000000, 1000000) 10 901 = Err "PoolAlreadyExists" /\
  ss_create stC allow_all st1 Root (300, 100) (1000000, 1000000) 10 900 = Err "LpTokenAlreadyExists".
Proof. split; [vm_compute; reflexivity|]. split; [vm_compute; reflexivity|]. split; vm_compute; reflexivity. Qed.

(** ** C128.  Quotes for an exact output.  [get_amounts_in] uses the constant-product formula on a StableSwap pool: it does not tell how much
    has to be paid.  Refuted: on this pool it says that 721 units buy 5000; they buy 689. *)
Theorem C128_amounts_in_refuted :
  exists C P s ins outs, ss_cfg_ok C /\ ss_reachable C P s /\
    ss_amounts_in C (ss_pools s) 5000 [100; 200] = Ok [ins; 5000] /\
    ss_amounts_out C (ss_pools s) ins [100; 200] = Ok [ins; outs] /\ outs < 5000 /\ ins = 721 /\ outs = 689.
Proof.
  exists stC, allow_all, st2, 721, 689. split; [apply stC_ok|]. split; [apply st2_reach|].
  split; [vm_compute; reflexivity|]. split; [vm_compute; reflexivity|]. lia.
Qed.
Print Assumptions C128_amounts_in_refuted.
(** what it does compute: one more than the constant-product input, plus fees *)
Theorem C128_amounts_in_formula C amount_out ri ro x :
  ss_cfg_ok C -> 0 <= amount_out -> 0 <= ri -> ss_amount_in C amount_out ri ro = Ok x ->
  amount_out < ro /\ ss_lp_fee C + ss_pfee C < PMILL /\
  x = sat128 (ri * amount_out / (ro - amount_out) * PMILL / (PMILL - (ss_lp_fee C + ss_pfee C))) + 1.
Proof.
  intros (HC1 & HC2 & _) Ho Hr H. unfold ss_amount_in in H. bstep H u Eu. bstep H n En. bstep H de Ed. bstep H ai Ea. bstep H r Er.
  unfold p_checked_add in Er. destruct (_ <=? PMILL) eqn:E; [|discriminate Er]. injection Er as <-.
  bstep H fp Ef. unfold p_checked_sub in Ef. rewrite E in Ef. injection Ef as <-. bstep H y Ey.
  unfold p_recip_mul_floor in Ey. destruct (_ =? 0) eqn:E0; [discriminate Ey|]. injection Ey as <-.
  apply ok_or_ok in H. unfold checked_add in H. apply chk_some in H. destruct H as [-> H].
  destruct En as [-> En]. destruct Ed as [-> Ed]. destruct Ea as [-> Ea]. split; [lia|]. split; [lia|reflexivity].
Qed.
Print Assumptions C128_amounts_in_formula.
