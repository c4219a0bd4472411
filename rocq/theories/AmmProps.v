(** * AmmProps: property theorems C01-C11 (AMM), each with its assumptions and a satisfying instance. *)
From Verif Require Import Base MapSum Ledger AmmModel AmmSpec AmmProofs AmmInv AmmProofs2 AmmProofs3 AmmProofs4 AmmEx.

(** C01.  A successful swap: exact token movements, exact reserve movements, product not decreased, nothing else. *)
Theorem C01_swap_preserves_product C P now s who ai ao amt out s' :
  cfg_ok C -> reserves_nonneg s -> 0 <= amt -> who <> amm_acct C ->
  do_swap C P now s who (ai, ao) amt = Ok (out, s') ->
  exists p p',
    let k := pair_key ai ao in
    pools s !! k = Some p /\ pools s' = <[k := p']> (pools s) /\
    kprod p <= kprod p' /\
    (forall a, reserve k p' a = reserve k p a + (if bool_decide (a = ai) then amt else 0)
                                 - (if bool_decide (a = ao) then out else 0)) /\
    (forall a w, bal (led s') a w =
       bal (led s) a w - at_ ai who a w amt + at_ ai (amm_acct C) a w amt
                       - at_ ao (amm_acct C) a w out + at_ ao who a w out) /\
    (forall a, iss (led s') a = iss (led s) a) /\
    pfee s' = pfee s /\ preceiver s' = preceiver s /\ p_lp p' = p_lp p.
Proof. exact (swap_full C P now s who ai ao amt out s'). Qed.
Print Assumptions C01_swap_preserves_product.

Example C01_example : okb (do_swap exC allow_all 7 ex1 11 (100, 200) 50000) (fun r => r.1 =? 96516) = true.
Proof. vm_compute. reflexivity. Qed.

(** C02.  Round trip and arbitrary sequences of swaps on one pool. *)
Theorem C02_round_trip_no_profit C P now1 now2 s who ai ao amt out s1 back s2 :
  cfg_ok C -> reserves_nonneg s -> 0 <= amt ->
  do_swap C P now1 s who (ai, ao) amt = Ok (out, s1) ->
  do_swap C P now2 s1 who (ao, ai) out = Ok (back, s2) -> back <= amt.
Proof. exact (round_trip C P now1 now2 s who ai ao amt out s1 back s2). Qed.
Print Assumptions C02_round_trip_no_profit.

Theorem C02_swap_sequences_no_profit C P s os s' k p :
  cfg_ok C -> amm_reachable C P s -> Forall (is_swap_on k) os -> amm_history C P s os s' ->
  pools s !! k = Some p ->
  exists p', pools s' !! k = Some p' /\
    (p_base p' <= p_base p -> p_quote p <= p_quote p') /\ (p_quote p' <= p_quote p -> p_base p <= p_base p').
Proof.
  exact (fun HC R => swaps_no_free_lunch C P s os s' k p HC (reachable_inv C P s HC R)).
Qed.
Print Assumptions C02_swap_sequences_no_profit.

Example C02_example :
  okb (let*' (out, s1) := do_swap exC allow_all 7 ex1 11 (100, 200) 50000 in do_swap exC allow_all 8 s1 11 (200, 100) out)
    (fun r => r.1 =? 49706) = true.
Proof. vm_compute. reflexivity. Qed.

(** C03.  Value of an LP share never decreases while the protocol fee is off, whatever happens. *)
Theorem C03_lp_share_value_never_decreases C P s os s' :
  cfg_ok C -> amm_reachable C P s -> protocol_fee_on s = false -> Forall not_fee_op os ->
  amm_history C P s os s' ->
  forall k p, pools s !! k = Some p ->
  exists p', pools s' !! k = Some p' /\ p_lp p' = p_lp p /\
    kprod p * (iss (led s') (p_lp p) * iss (led s') (p_lp p)) <=
    kprod p' * (iss (led s) (p_lp p) * iss (led s) (p_lp p)).
Proof. exact (fun HC R => history_share C P s os s' HC (reachable_inv C P s HC R)). Qed.
Print Assumptions C03_lp_share_value_never_decreases.

(** C04.  Solvency in every reachable state. *)
Theorem C04_amm_solvent C P s :
  cfg_ok C -> amm_reachable C P s -> forall a, total_reserves s a <= bal (led s) a (amm_acct C).
Proof. exact (fun HC R => inv_solv C s (reachable_inv C P s HC R)). Qed.
Print Assumptions C04_amm_solvent.

Example C04_example : amm_reachable exC allow_all ex1 /\ total_reserves ex1 100 = 2191438.
Proof. split; [apply ex1_reachable | vm_compute; reflexivity]. Qed.

(** C05. *)
Theorem C05_add_liquidity_bounds C P s who a b desired minimum s' :
  cfg_ok C -> amm_reachable C P s -> u128_ok desired.1 -> u128_ok desired.2 -> user C who ->
  add_liquidity C P s who (a, b) desired minimum = Ok s' ->
  exists p p' ta tb fee liq,
    let k := pair_key a b in let lp := p_lp p in
    pools s !! k = Some p /\ pools s' = <[k := p']> (pools s) /\ a <> b /\
    minimum.1 <= ta <= desired.1 /\ minimum.2 <= tb <= desired.2 /\ 0 <= ta /\ 0 <= tb /\
    (ta = desired.1 \/ tb = desired.2) /\
    reserve k p' a = reserve k p a + ta /\ reserve k p' b = reserve k p b + tb /\
    (forall w, w <> who -> w <> amm_acct C -> a <> lp -> b <> lp ->
       bal (led s') a w = bal (led s) a w /\ bal (led s') b w = bal (led s) b w) /\
    (a <> lp -> bal (led s') a who = bal (led s) a who - ta) /\
    (b <> lp -> bal (led s') b who = bal (led s) b who - tb) /\
    0 <= liq /\ 0 <= fee /\ (protocol_fee_on s = false -> fee = 0) /\
    iss (led s') lp = iss (led s) lp + fee + liq /\
    (a <> lp -> b <> lp -> preceiver s <> Some who -> bal (led s') lp who = bal (led s) lp who + liq) /\
    liq * reserve k p a <= ta * (iss (led s) lp + fee) /\
    liq * reserve k p b <= tb * (iss (led s) lp + fee).
Proof.
  exact (fun HC R => add_liquidity_bounds C P s who a b desired minimum s' HC (reachable_inv C P s HC R)).
Qed.
Print Assumptions C05_add_liquidity_bounds.

Example C05_example : is_ok (add_liquidity exC allow_all ex1 11 (100, 200) (1000, 100000) (900, 1500)) = true.
Proof. vm_compute. reflexivity. Qed.

(** C06. *)
Theorem C06_remove_liquidity_pro_rata C P s who a b l s' :
  remove_liquidity C P s who (a, b) l = Ok s' -> user C who ->
  exists p p' xa xb fee recv,
    let k := pair_key a b in let lp := p_lp p in
    a <> b /\ pools s !! k = Some p /\ pools s' = <[k := p']> (pools s) /\
    xa = l * reserve k p a / (iss (led s) lp + fee) /\
    xb = l * reserve k p b / (iss (led s) lp + fee) /\
    iss (led s) lp + fee <> 0 /\ 0 <= l /\
    reserve k p' a = reserve k p a - xa /\ reserve k p' b = reserve k p b - xb /\
    0 <= fee /\ (protocol_fee_on s = false -> fee = 0) /\
    iss (led s') lp = iss (led s) lp + fee - l /\
    (forall x w, bal (led s') x w = bal (led s) x w + at_ lp recv x w fee - at_ lp who x w l
         + at_ a who x w xa + at_ b who x w xb - at_ a (amm_acct C) x w xa - at_ b (amm_acct C) x w xb).
Proof. exact (remove_liquidity_full C P s who a b l s'). Qed.
Print Assumptions C06_remove_liquidity_pro_rata.

Example C06_example : is_ok (remove_liquidity exC allow_all ex1 10 (100, 200) 500000) = true.
Proof. vm_compute. reflexivity. Qed.

(** C07. *)
Theorem C07_pool_never_drained C P s k p :
  cfg_ok C -> amm_reachable C P s -> pools s !! k = Some p ->
  0 < p_base p /\ 0 < p_quote p /\ min_liq C <= bal (led s) (p_lp p) (lock_acct C) /\
  min_liq C <= iss (led s) (p_lp p).
Proof.
  exact (fun HC R Hk => let I := reachable_inv C P s HC R in
    conj (proj1 (proj1 (inv_pos C s I k p Hk))) (conj (proj1 (proj2 (inv_pos C s I k p Hk)))
      (conj (inv_lock C s I k p Hk) (inv_iss_pos C s k p HC I Hk)))).
Qed.
Print Assumptions C07_pool_never_drained.

(** every pool present in a state is still present (with the same LP token) after any further history *)
Theorem C07_pools_are_never_removed C P s os s' k p :
  cfg_ok C -> amm_reachable C P s -> amm_history C P s os s' -> pools s !! k = Some p ->
  exists p', pools s' !! k = Some p' /\ p_lp p' = p_lp p.
Proof. exact (fun HC R => history_keeps_pool C P s os s' k p HC (reachable_inv C P s HC R)). Qed.
Print Assumptions C07_pools_are_never_removed.

(** C08. *)
Theorem C08_pair_order_irrelevant C P s who o a b d1 d2 m1 m2 l r lp :
  add_liquidity C P s who (b, a) (d2, d1) (m2, m1) = add_liquidity C P s who (a, b) (d1, d2) (m1, m2) /\
  remove_liquidity C P s who (b, a) l = remove_liquidity C P s who (a, b) l /\
  create_pool C P s o (b, a) (d2, d1) r lp = create_pool C P s o (a, b) (d1, d2) r lp /\
  (forall x y, get_reserves (pools s) a b = Ok (x, y) -> get_reserves (pools s) b a = Ok (y, x)).
Proof.
  exact (conj (add_liquidity_sym C P s who a b d1 d2 m1 m2)
    (conj (remove_liquidity_sym C P s who a b l)
      (conj (create_pool_sym C P s o a b d1 d2 r lp) (get_reserves_sym (pools s) a b)))).
Qed.
Print Assumptions C08_pair_order_irrelevant.

Theorem C08_create_pool_only_once_with_fresh_lp C P s o a b amts r lp s' :
  create_pool C P s o (a, b) amts r lp = Ok s' ->
  create_origin C o = true /\ a <> b /\ pools s !! pair_key a b = None /\ iss (led s) lp = 0 /\
  (exists p, pools s' = <[pair_key a b := p]> (pools s) /\ p_lp p = lp).
Proof. exact (create_pool_fresh C P s o a b amts r lp s'). Qed.
Print Assumptions C08_create_pool_only_once_with_fresh_lp.

Theorem C08_identical_assets_rejected C P a now s who d m l amt o r lp :
  is_ok (add_liquidity C P s who (a, a) d m) = false /\ is_ok (remove_liquidity C P s who (a, a) l) = false /\
  is_ok (do_swap C P now s who (a, a) amt) = false /\ is_ok (create_pool C P s o (a, a) d r lp) = false.
Proof. exact (identical_rejected C P a now s who d m l amt o r lp). Qed.
Print Assumptions C08_identical_assets_rejected.

Theorem C08_lp_tokens_unique C P s k1 p1 k2 p2 :
  cfg_ok C -> amm_reachable C P s ->
  pools s !! k1 = Some p1 -> pools s !! k2 = Some p2 -> p_lp p1 = p_lp p2 -> k1 = k2.
Proof. exact (fun HC R => inv_uniq C s (reachable_inv C P s HC R) k1 p1 k2 p2). Qed.
Print Assumptions C08_lp_tokens_unique.

(** C09.  The full statement
      forall aout ri ro ain out, get_amount_in aout ri ro = Ok ain -> get_amount_out ain ri ro = Ok out -> aout <= out
    is FALSE of the code: *)
Theorem C09_exact_output_quote_sufficient_refuted :
  exists C aout ri ro ain out,
    cfg_ok C /\ lp_fee C = 3000 /\ get_amount_in C aout ri ro = Ok ain /\ get_amount_out C ain ri ro = Ok out /\
    aout = 996905 /\ out = 996006.
Proof.
  exists exC, 996905, 1000000, 1000000000, 1001, 996006.
  split; [exact exC_ok|]. vm_compute. repeat split; reflexivity.
Qed.
Print Assumptions C09_exact_output_quote_sufficient_refuted.

(** what does hold: the quote suffices when the division is exact, and one extra unit always suffices *)
Theorem C09_exact_output_quote_partial C aout ri ro ain out :
  cfg_ok C -> 0 <= aout -> 0 <= ri -> (ro - aout | ri * aout) ->
  get_amount_in C aout ri ro = Ok ain -> get_amount_out C ain ri ro = Ok out -> aout <= out.
Proof. exact (exact_out_divisible C aout ri ro ain out). Qed.
Print Assumptions C09_exact_output_quote_partial.

Theorem C09_exact_output_quote_plus_one_partial C aout ri ro ain out :
  cfg_ok C -> 2 * lp_fee C <= PMILL -> 0 <= aout -> 0 <= ri ->
  get_amount_in C aout ri ro = Ok ain -> get_amount_out C (ain + 1) ri ro = Ok out -> aout <= out.
Proof. exact (exact_out_plus_one C aout ri ro ain out). Qed.
Print Assumptions C09_exact_output_quote_plus_one_partial.

Example C09_example : get_amount_in exC 996905 1000000 1000000000 = Ok 1001 /\ get_amount_out exC 1002 1000000 1000000000 = Ok 997004.
Proof. vm_compute. split; reflexivity. Qed.

(** C10.  Monotone, but the increment uses the price AFTER the trade: *)
Theorem C10_cumulative_price_partial C P now s who ai ao amt out s' :
  cfg_ok C -> do_swap C P now s who (ai, ao) amt = Ok (out, s') ->
  exists p p', pools s !! pair_key ai ao = Some p /\ pools s' !! pair_key ai ao = Some p' /\
    p_price0 p <= p_price0 p' /\ p_price1 p <= p_price1 p' /\ p_ts p' = now /\
    (p_ts p = now -> p_price0 p' = p_price0 p /\ p_price1 p' = p_price1 p) /\
    (p_ts p <> now ->
      p_price0 p' = p_price0 p + sat128 (Z.max 0 (now - p_ts p) * p_quote p' * FDIV / p_base p') /\
      p_price1 p' = p_price1 p + sat128 (Z.max 0 (now - p_ts p) * p_base p' * FDIV / p_quote p')).
Proof. exact (swap_oracle_monotone C P now s who ai ao amt out s'). Qed.
Print Assumptions C10_cumulative_price_partial.

(** the price in force between block 5 and block 7 was quote/base = 0.505; the accumulator records about 1.09 per block *)
Theorem C10_twap_records_pre_trade_price_refuted :
  exists C P now s who ai ao amt out s' p p',
    cfg_ok C /\ amm_reachable C P s /\ do_swap C P now s who (ai, ao) amt = Ok (out, s') /\
    pools s !! pair_key ai ao = Some p /\ pools s' !! pair_key ai ao = Some p' /\ p_ts p < now /\
    2 * ((now - p_ts p) * p_quote p * FDIV / p_base p) < p_price0 p' - p_price0 p.
Proof.
  exists exC, allow_all, 7, ex1, 11, 100, 200, 1000000.
  assert (E : okb (do_swap exC allow_all 7 ex1 11 (100, 200) 1000000) (fun r =>
      someb (pools ex1 !! pair_key 100 200) (fun p => someb (pools r.2 !! pair_key 100 200) (fun p' =>
        (p_ts p <? 7) && (2 * ((7 - p_ts p) * p_quote p * FDIV / p_base p) <? p_price0 p' - p_price0 p)))) = true)
    by (vm_compute; reflexivity).
  apply okb_spec in E as ([out s'] & E0 & E). apply someb_spec in E as (p & Ep & E).
  apply someb_spec in E as (p' & Ep' & E). apply andb_prop in E as [E1 E2].
  exists out, s', p, p'. repeat (split; [first [exact exC_ok | exact ex1_reachable | assumption]|]). split; lia.
Qed.
Print Assumptions C10_twap_records_pre_trade_price_refuted.

(** C11.  If reserves were recorded at the previous liquidity event (which happens when the fee was on then, see
    [C11_reserves_recorded_when_fee_on]), the LP minted as protocol fee at the next event is at most the growth. *)
Theorem C11_protocol_fee_at_most_growth_partial C P s0 os s k p0 p f p' L' :
  cfg_ok C -> amm_reachable C P s0 -> pools s0 !! k = Some p0 ->
  p_base_last p0 = p_base p0 -> p_quote_last p0 = p_quote p0 ->
  amm_history C P s0 os s -> Forall (quiet_on k) os -> pools s !! k = Some p ->
  do_mint_protocol_fee P s p = Ok (f, p', L') ->
  0 <= f /\ iss (led s0) (p_lp p) = iss (led s) (p_lp p) /\ iss L' (p_lp p) = iss (led s) (p_lp p) + f /\
  Z.sqrt (kprod p0) * (iss (led s) (p_lp p) + f) <= Z.sqrt (kprod p) * iss (led s) (p_lp p).
Proof.
  exact (fun HC R => fee_growth C P s0 os s k p0 p f p' L' HC (reachable_inv C P s0 HC R)).
Qed.
Print Assumptions C11_protocol_fee_at_most_growth_partial.

Theorem C11_reserves_recorded_when_fee_on C P s who pr d m s' :
  reserves_nonneg s -> 0 <= d.1 -> 0 <= d.2 -> protocol_fee_on s = true ->
  add_liquidity C P s who pr d m = Ok s' ->
  exists p', pools s' !! pair_key pr.1 pr.2 = Some p' /\ p_base_last p' = p_base p' /\ p_quote_last p' = p_quote p'.
Proof. exact (last_recorded_add C P s who pr d m s'). Qed.
Print Assumptions C11_reserves_recorded_when_fee_on.

(** switching the fee (20%) on for an existing pool: with no trade at all since the pool was created, the next
    add_liquidity mints 1/4 of the LP supply to the fee receiver (k_last = 0 is not treated as "no record") *)
Definition ex_fee_ops : list amm_op :=
  [OCreate Root (100, 200) (2000000, 2000000) 10 900; OFee Root 200000; OReceiver Root 77].
Definition ex_fee : amm := exrun ex0 ex_fee_ops.
Lemma ex_fee_reachable : amm_reachable exC allow_all ex_fee.
Proof.
  unfold ex_fee, exrun, ex_fee_ops. cbn [fold_left].
  repeat (apply amm_reach_step; [|cbn; repeat split; try ex_user; try lia; try (vm_compute; congruence)]).
  apply amm_reach_init, mk_ledger_wf.
Qed.
Theorem C11_protocol_fee_at_most_growth_refuted :
  exists C P s who pr d m s' p,
    cfg_ok C /\ amm_reachable C P s /\ pools s !! pair_key pr.1 pr.2 = Some p /\
    kprod p = 2000000 * 2000000 /\ iss (led s) (p_lp p) = 2000000 /\
    add_liquidity C P s who pr d m = Ok s' /\
    preceiver s = Some 77 /\ bal (led s) (p_lp p) 77 = 0 /\ bal (led s') (p_lp p) 77 = 500000.
Proof.
  exists exC, allow_all, ex_fee, 11, (100, 200), (2000, 2000), (0, 0).
  assert (E : okb (add_liquidity exC allow_all ex_fee 11 (100, 200) (2000, 2000) (0, 0)) (fun s' =>
      someb (pools ex_fee !! pair_key 100 200) (fun p =>
        bool_decide (kprod p = 2000000 * 2000000 /\ iss (led ex_fee) (p_lp p) = 2000000 /\ preceiver ex_fee = Some 77 /\
          bal (led ex_fee) (p_lp p) 77 = 0 /\ bal (led s') (p_lp p) 77 = 500000))) = true)
    by (vm_compute; reflexivity).
  apply okb_spec in E as (s' & E0 & E). apply someb_spec in E as (p & Ep & E). apply bool_decide_eq_true in E.
  exists s', p. split; [exact exC_ok|]. split; [exact ex_fee_reachable|]. split; [exact Ep|]. tauto.
Qed.
Print Assumptions C11_protocol_fee_at_most_growth_refuted.
