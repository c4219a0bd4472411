(** * AmmProps2: property theorems C78-C82 (AMM: exact amounts, progress, protocol fee share). *)
From Verif Require Import Base MapSum Ledger AmmModel AmmSpec AmmProofs AmmInv AmmProofs2 AmmProofs3 AmmProofs4 AmmProofs5 AmmEx.

(** ** C78.  A swap pays exactly the constant-product amount for the input after the fee, rounded down: the fee is the LP fee of the
    input rounded up, and the output is the largest one that keeps (reserve in + net input) * (reserve out - output) at least the
    product of the reserves.  The public quote gives the same amount. *)
Theorem C78_swap_output_exact C P now s who ai ao amt out s' :
  cfg_ok C -> amm_reachable C P s -> 0 <= amt -> do_swap C P now s who (ai, ao) amt = Ok (out, s') ->
  exists p fee net, let k := pair_key ai ao in let Ri := reserve k p ai in let Ro := reserve k p ao in
    pools s !! k = Some p /\ (fee - 1) * PMILL < lp_fee C * amt <= fee * PMILL /\ net = amt - fee /\ 0 <= net /\
    Ri * Ro <= (Ri + net) * (Ro - out) /\ (forall o, Ri * Ro <= (Ri + net) * (Ro - o) -> o <= out) /\
    get_amounts_out C (pools s) amt [ai; ao] = Ok [amt; out].
Proof.
  intros HC R A H. pose proof (reachable_inv C P s HC R) as I.
  destruct (swap_exact C P now s who ai ao amt out s' HC (inv_nonneg C s I) A H) as (p & fee & net & Hne & Hp & F & -> & N & O & Q).
  exists p, fee, (amt - fee). cbv zeta. split; [auto|]. split; [auto|]. split; [auto|]. split; [auto|].
  split; [nia|]. split; [|auto]. intros o Ho. destruct (Z_le_gt_dec o out); [auto|]. exfalso.
  pose proof (inv_pos C s I _ _ Hp). pose proof (reserve_nonneg (pair_key ai ao) p ai ltac:(lia) ltac:(lia)). nia.
Qed.
Print Assumptions C78_swap_output_exact.
Example C78_example : okb (do_swap exC allow_all 7 ex1 10 (200, 100) 50000) (fun r => r.1 =? 24888) = true.
Proof. vm_compute. reflexivity. Qed.

(** ** C79.  Liquidity.  add_liquidity takes the full desired amount of one asset and exactly the pool-ratio amount (rounded down)
    of the other, and mints exactly the smaller of the two pro-rata shares; create_pool mints sqrt(x*y) shares, of which
    MinimumLiquidity go to the lock account and the rest to the receiver. *)
Theorem C79_add_liquidity_exact C P s who a b desired minimum s' :
  cfg_ok C -> amm_reachable C P s -> u128_ok desired.1 -> u128_ok desired.2 ->
  add_liquidity C P s who (a, b) desired minimum = Ok s' ->
  exists p p' ta tb fee, let k := pair_key a b in let lp := p_lp p in let T := iss (led s) lp + fee in
    pools s !! k = Some p /\ pools s' = <[k := p']> (pools s) /\
    reserve k p' a = reserve k p a + ta /\ reserve k p' b = reserve k p b + tb /\
    ((ta = desired.1 /\ tb = desired.1 * reserve k p b / reserve k p a) \/
     (tb = desired.2 /\ ta = desired.2 * reserve k p a / reserve k p b)) /\
    0 <= fee /\ (protocol_fee_on s = false -> fee = 0) /\
    iss (led s') lp = T + Z.min (ta * T / reserve k p a) (tb * T / reserve k p b).
Proof. intros HC R. apply add_exact; auto. apply (reachable_inv C P); auto. Qed.
Print Assumptions C79_add_liquidity_exact.
Theorem C79_create_pool_exact C P s o a b amts r lp s' :
  cfg_ok C -> u128_ok amts.1 -> u128_ok amts.2 -> user C r -> a <> lp -> b <> lp ->
  create_pool C P s o (a, b) amts r lp = Ok s' ->
  exists p, let k := pair_key a b in
    pools s' = <[k := p]> (pools s) /\ p_lp p = lp /\ reserve k p a = amts.1 /\ reserve k p b = amts.2 /\
    iss (led s') lp = Z.sqrt (amts.1 * amts.2) /\ min_liq C <= Z.sqrt (amts.1 * amts.2) /\
    (forall x w, bal (led s') x w = bal (led s) x w
       + at_ lp r x w (Z.sqrt (amts.1 * amts.2) - min_liq C) + at_ lp (lock_acct C) x w (min_liq C)
       - at_ a r x w amts.1 + at_ a (amm_acct C) x w amts.1 - at_ b r x w amts.2 + at_ b (amm_acct C) x w amts.2).
Proof. apply create_exact. Qed.
Print Assumptions C79_create_pool_exact.
Example C79_example :
  okb (add_liquidity exC allow_all ex1 11 (100, 200) (70000, 70000) (1, 1)) (fun s' =>
    someb (pools s' !! (200, 100)) (fun p' => someb (pools ex1 !! (200, 100)) (fun p =>
      (p_base p' - p_base p =? 70000) && (p_quote p' - p_quote p =? 35350) && (iss (led s') 900 - iss (led ex1) 900 =? 49743)))) = true /\
  okb (create_pool exC allow_all ex0 Root (100, 200) (2000000, 4000000) 10 900) (fun s' =>
    (bal (led s') 900 10 =? 2827427) && (bal (led s') 900 2 =? 1000)) = true.
Proof. vm_compute. auto. Qed.

(** ** C80.  Swaps go through.  A user with enough input (at least one fee unit) can swap on any pool, as long as the reserve and the
    price accumulators do not overflow.  Partial: the accumulators can overflow, see below. *)
Theorem C80_swap_succeeds_partial C P now s who ai ao amt p :
  cfg_ok C -> amm_reachable C P s -> lenient P -> user C who -> ai <> ao -> pools s !! pair_key ai ao = Some p ->
  0 < lp_fee C -> PMILL <= lp_fee C * amt -> 0 <= amt <= bal (led s) ai who -> let k := pair_key ai ao in
  reserve k p ai + amt <= U128MAX ->
  (forall out, 0 <= out < reserve k p ao -> out * (reserve k p ai + amt) <= amt * reserve k p ao ->
     if ai <? ao then oracle_room now p (reserve k p ao - out) (reserve k p ai + amt)
     else oracle_room now p (reserve k p ai + amt) (reserve k p ao - out)) ->
  exists out s', do_swap C P now s who (ai, ao) amt = Ok (out, s').
Proof.
  intros HC R LP [U _] Hne Hp HF HM HA k Ho HO. destruct (prices_reach C P s HC R _ _ Hp) as [Q0 Q1].
  destruct (swap_prog C P now s who ai ao amt p HC (reachable_inv C P s HC R) LP U Hne Hp HF HM HA ltac:(lia) ltac:(lia) Ho HO) as [[o s'] E]. eauto.
Qed.
Print Assumptions C80_swap_succeeds_partial.
(** In the same block as an earlier trade there is nothing to accumulate: *)
Theorem C80_swap_same_block C P now s who ai ao amt p :
  cfg_ok C -> amm_reachable C P s -> lenient P -> user C who -> ai <> ao -> pools s !! pair_key ai ao = Some p -> p_ts p = now ->
  0 < lp_fee C -> PMILL <= lp_fee C * amt -> 0 <= amt <= bal (led s) ai who -> reserve (pair_key ai ao) p ai + amt <= U128MAX ->
  exists out s', do_swap C P now s who (ai, ao) amt = Ok (out, s').
Proof.
  intros HC R LP U Hne Hp Ht HF HM HA Ho. eapply C80_swap_succeeds_partial; eauto. intros out _ _. destruct (ai <? ao); left; auto.
Qed.
Print Assumptions C80_swap_same_block.
Example C80_example : lenient allow_all /\ someb (pools ex1 !! (200, 100)) (fun p => p_ts p =? 5) = true /\
  PMILL <= lp_fee exC * 334 /\ 334 <= bal (led ex1) 100 11.
Proof. split; [repeat split|]. split; [vm_compute; reflexivity|]. split; vm_compute; discriminate. Qed.

(** The first accumulator update of a pool counts all blocks since genesis and the accumulators stop at 2^128-1.  A pool of 1 unit of
    an asset with 8 decimals against 20000 units of one with 18 decimals is blocked by its first trade (at block 5000000): from the
    next block on nobody can swap any amount in either direction. *)
Definition brL : ledger := mk_ledger [(100, 10, 10 ^ 24); (200, 10, 10 ^ 9)].
Definition br_ops : list amm_op :=
  [OCreate Root (100, 200) (2 * 10 ^ 22, 10 ^ 8) 10 900; OSwap 5000000 10 (100, 200) (10 ^ 19)].
Definition br1 : amm := exrun (amm_init brL) br_ops.
Lemma br1_reachable : amm_reachable exC allow_all br1.
Proof.
  unfold br1, exrun, br_ops. cbn [fold_left].
  repeat (apply amm_reach_step; [|cbn; repeat split; try ex_user; try lia]).
  apply amm_reach_init, mk_ledger_wf.
Qed.
Theorem C80_swaps_can_be_blocked_refuted :
  exists C s p, cfg_ok C /\ amm_reachable C allow_all s /\ pools s !! pair_key 100 200 = Some p /\
    p_base p = 99950175 /\ p_quote p = 20010 * 10 ^ 18 /\
    forall P now who ai ao amt r, pair_key ai ao = pair_key 100 200 -> 0 <= amt -> user C who -> p_ts p < now ->
      do_swap C P now s who (ai, ao) amt <> Ok r.
Proof.
  assert (A : someb (pools br1 !! (200, 100)) (fun p => (p_base p =? 99950175) && (p_quote p =? 20010 * 10 ^ 18) && (p_price0 p =? U128MAX)) = true)
    by (vm_compute; reflexivity).
  apply someb_spec in A as (p & Hp & A). apply andb_prop in A as [A A3]. apply andb_prop in A as [A1 A2].
  apply Z.eqb_eq in A1, A2, A3.
  exists exC, br1, p. split; [apply exC_ok|]. split; [apply br1_reachable|]. split; [exact Hp|]. split; [exact A1|]. split; [exact A2|].
  intros P now who ai ao amt r Hk Ha [U _] Ht H. destruct r as [out s'].
  assert (I : amm_inv exC br1) by (apply (reachable_inv exC allow_all); [apply exC_ok|apply br1_reachable]).
  pose proof (inv_wf _ _ I) as W.
  apply do_swap_spec in H as (p0 & p1 & p2 & L1 & L2 & H). cbv zeta in H. rewrite Hk in H.
  destruct H as (Hne & Hp0 & _ & _ & Hout & E1 & Ho & _ & T1 & _). change (pair_key 100 200) with (200, 100) in *.
  assert (p0 = p) as -> by (apply (inj Some); etransitivity; [symmetry; exact Hp0|exact Hp]). clear Hp0.
  assert (BI : amt <= 10 ^ 24).
  { apply transfer_spec in T1 as (_ & _ & T1). pose proof (bal_le_iss (led br1) ai who W) as X.
    assert (Y : iss (led br1) 100 <= 10 ^ 24 /\ iss (led br1) 200 <= 10 ^ 24) by (split; apply Z.leb_le; vm_compute; reflexivity).
    assert (Z0 : ai = 100 \/ ai = 200) by (unfold pair_key in Hk; injection Hk as K1 K2; lia).
    destruct (Z.eq_dec amt 0) as [->|]; [lia|]. specialize (T1 ltac:(lia) U). destruct Z0 as [-> | ->]; lia. }
  assert (BB : ai = 200 -> amt <= 10 ^ 9).
  { intros ->. apply transfer_spec in T1 as (_ & _ & T1). pose proof (bal_le_iss (led br1) 200 who W) as X.
    assert (Y : iss (led br1) 200 <= 10 ^ 9) by (apply Z.leb_le; vm_compute; reflexivity).
    destruct (Z.eq_dec amt 0) as [->|]; [lia|]. specialize (T1 ltac:(lia) U). lia. }
  clear W I T1 Hp L1 L2. assert (R : reserve (200, 100) p 200 = p_base p /\ reserve (200, 100) p 100 = p_quote p).
  { unfold reserve. cbn. repeat case_bool_decide; lia. }
  assert (Z0 : (ai = 100 /\ ao = 200) \/ (ai = 200 /\ ao = 100)) by (unfold pair_key in Hk; injection Hk as K1 K2; lia).
  assert (F : FDIV = 10 ^ 18) by (vm_compute; reflexivity).
  destruct R as [R1 R2]. clear Hk. destruct Z0 as [[-> ->]|[-> ->]]; cbn in E1; rewrite R1, R2 in *.
  - pose proof (get_amount_out_bounds exC amt (p_quote p) (p_base p) out exC_ok ltac:(lia) ltac:(lia) ltac:(lia) Hout) as (G & _).
    pose proof (get_amount_out_lt exC amt (p_quote p) (p_base p) out exC_ok ltac:(lia) ltac:(lia) ltac:(lia) Hout) as GL.
    clear BB Hout. subst p1. revert Ho. apply oracle_stuck; cbn; rewrite ?F; lia.
  - specialize (BB eq_refl).
    pose proof (get_amount_out_bounds exC amt (p_base p) (p_quote p) out exC_ok ltac:(lia) ltac:(lia) ltac:(lia) Hout) as (G & _).
    pose proof (get_amount_out_lt exC amt (p_base p) (p_quote p) out exC_ok ltac:(lia) ltac:(lia) ltac:(lia) Hout) as GL.
    clear Hout. subst p1. revert Ho. apply oracle_stuck; cbn; rewrite ?F; lia.
Qed.
Print Assumptions C80_swaps_can_be_blocked_refuted.

(** ** C81.  Liquidity providers can always leave.  A holder can redeem any part of the LP tokens he holds at any time, and a user can
    add liquidity (fee off, no overflow).  Partial: with the protocol fee on it must be at most 50%. *)
Theorem C81_providers_can_leave_partial C P s who a b l p :
  cfg_ok C -> amm_reachable C P s -> lenient P -> user C who -> a <> b -> pools s !! pair_key a b = Some p ->
  0 <= l <= bal (led s) (p_lp p) who ->
  (protocol_fee_on s = true -> 0 < pfee s /\ 2 * pfee s <= PMILL /\ 2 * iss (led s) (p_lp p) <= U128MAX) ->
  exists s', remove_liquidity C P s who (a, b) l = Ok s'.
Proof. intros HC R. apply remove_prog; auto. apply (reachable_inv C P); auto. Qed.
Print Assumptions C81_providers_can_leave_partial.
Theorem C81_providers_can_join C P s who a b d1 d2 p :
  cfg_ok C -> amm_reachable C P s -> lenient P -> user C who -> a <> b -> pools s !! pair_key a b = Some p -> protocol_fee_on s = false ->
  let k := pair_key a b in let T := iss (led s) (p_lp p) in
  0 <= d1 <= bal (led s) a who -> 0 <= d2 <= bal (led s) b who ->
  reserve k p a + d1 <= U128MAX -> reserve k p b + d2 <= U128MAX ->
  d1 * reserve k p b / reserve k p a <= U128MAX -> d2 * reserve k p a / reserve k p b <= U128MAX ->
  T + d1 * T / reserve k p a <= U128MAX -> T + d2 * T / reserve k p b <= U128MAX ->
  exists s', add_liquidity C P s who (a, b) (d1, d2) (0, 0) = Ok s'.
Proof. intros HC R. apply add_prog; auto. apply (reachable_inv C P); auto. Qed.
Print Assumptions C81_providers_can_join.
Example C81_example : protocol_fee_on ex1 = false /\ someb (pools ex1 !! (200, 100)) (fun p => p_lp p =? 900) = true /\
  bal (led ex1) 900 10 = 2727427 /\ is_ok (remove_liquidity exC allow_all ex1 10 (100, 200) 2727427) = true.
Proof. vm_compute. auto. Qed.
(** With a fee above 50% nobody can enter or leave a pool that has not recorded its reserves since the fee was switched on. *)
Definition ex_lock_ops : list amm_op :=
  [OCreate Root (100, 200) (2000000, 4000000) 10 900; OFee Root 600000; OReceiver Root 77].
Definition ex_lock : amm := exrun ex0 ex_lock_ops.
Lemma ex_lock_reachable : amm_reachable exC allow_all ex_lock.
Proof.
  unfold ex_lock, exrun, ex_lock_ops. cbn [fold_left].
  repeat (apply amm_reach_step; [|cbn; repeat split; try ex_user; try lia; try (vm_compute; discriminate)]).
  apply amm_reach_init, mk_ledger_wf.
Qed.
Theorem C81_providers_can_leave_refuted :
  exists C s p, cfg_ok C /\ amm_reachable C allow_all s /\ pools s !! pair_key 100 200 = Some p /\ 0 < bal (led s) (p_lp p) 10 /\
    forall P who l d m r, remove_liquidity C P s who (100, 200) l <> Ok r /\ add_liquidity C P s who (100, 200) d m <> Ok r.
Proof.
  assert (A : someb (pools ex_lock !! (200, 100)) (fun p => (p_base p =? 4000000) && (p_quote p =? 2000000) && (p_base_last p =? 0) && (p_lp p =? 900)) = true)
    by (vm_compute; reflexivity).
  apply someb_spec in A as (p & Hp & A). apply andb_prop in A as [A A4]. apply andb_prop in A as [A A3]. apply andb_prop in A as [A1 A2].
  apply Z.eqb_eq in A1, A2, A3, A4.
  assert (Q : pfee ex_lock = 600000 /\ preceiver ex_lock = Some 77) by (vm_compute; auto). destruct Q as [Q1 Q2].
  exists exC, ex_lock, p. split; [apply exC_ok|]. split; [apply ex_lock_reachable|]. split; [exact Hp|].
  split. { rewrite A4. apply Z.ltb_lt. vm_compute. reflexivity. }
  assert (M : forall P, do_mint_protocol_fee P ex_lock p = Err "Underflow").
  { intros P. unfold do_mint_protocol_fee, protocol_fee_on, fee_reciprocal. rewrite Q1, Q2, A1, A2, A3. cbn [andb negb Z.eqb].
    rewrite bool_decide_true by eauto. change (Z.sqrt (4000000 * 2000000)) with 2828427. change (Z.sqrt (0 * p_quote_last p)) with 0.
    change (2828427 <=? 0) with false. cbn [negb]. unfold p_recip_mul_floor. change (600000 =? 0) with false. cbn [rbind].
    change (sat128 (1 * PMILL / 600000)) with 1. change (checked_sub 1 1) with (Some 0). cbn [ok_or rbind]. reflexivity. }
  clear A1 A2 A3 A4 Q1 Q2.
  intros P who l d m r. split; intros H.
  - apply remove_liquidity_spec in H as (p0 & p1 & L1 & p2 & L2 & f & x & y & _ & Hp0 & Hf & _).
    assert (p0 = p) as -> by (apply (inj Some); etransitivity; [symmetry; exact Hp0|exact Hp]). rewrite M in Hf. discriminate Hf.
  - unfold add_liquidity in H. rewrite (sort_assets_ok 100 200 ltac:(lia)) in H. cbn [rbind] in H.
    change (Z.max 100 200, Z.min 100 200) with (200, 100) in H. change (pair_key 100 200) with (200, 100) in Hp. rewrite Hp in H.
    destruct d as [d1 d2], m as [m1 m2]. cbn [ok_or rbind] in H. change (100 <? 200) with true in H. cbn iota in H. cbn [fst snd] in H.
    clear Hp. bstep H ii E1. destruct ii as [ib iq]. bstep H u1 E2. bstep H u2 E3. bstep H z E4. rewrite M in E4. discriminate E4.
Qed.
Print Assumptions C81_providers_can_leave_refuted.

(** ** C82.  The protocol takes its share of the growth.  With r and r0 the square roots of the current and the recorded product and T
    the LP issuance, the fee f minted satisfies f/(T+f) <= (r-r0)/r / floor(1/fee), which is the configured share of the growth if
    the configured fee divides 1.  Partial: otherwise it can be more, see below. *)
Theorem C82_protocol_fee_share_partial P C s p f p' L' :
  cfg_ok C -> amm_reachable C P s -> protocol_fee_on s = true -> 0 < pfee s <= PMILL -> (pfee s | PMILL) ->
  do_mint_protocol_fee P s p = Ok (f, p', L') ->
  let r := Z.sqrt (kprod p) in let r0 := Z.sqrt (p_base_last p * p_quote_last p) in let T := iss (led s) (p_lp p) in
  f * r * PMILL <= pfee s * Z.max 0 (r - r0) * (T + f).
Proof.
  intros HC R On Hf Dv H r r0 T. pose proof (inv_wf C s (reachable_inv C P s HC R)) as W.
  destruct (fee_proportion P s p f p' L' On Hf (Z.le_trans _ _ _ (proj1 W (p_lp p) 0) (bal_le_iss _ _ 0 W)) H) as [_ B]. fold r0 T in B. change (Z.sqrt (p_base p * p_quote p)) with r in B.
  destruct Dv as [m Dv]. assert (E : PMILL / pfee s = m) by (rewrite Dv; apply Z.div_mul; lia). rewrite E in B.
  set (x := Z.max 0 (r - r0) * (T + f)) in *. replace (pfee s * Z.max 0 (r - r0) * (T + f)) with (pfee s * x) by (unfold x; ring).
  replace (f * r * PMILL) with (pfee s * (f * r * m)) by (rewrite Dv; ring). apply Z.mul_le_mono_nonneg_l; lia.
Qed.
Print Assumptions C82_protocol_fee_share_partial.
Definition ex_sh_ops (fee : Z) : list amm_op :=
  [OCreate Root (100, 200) (2000000, 2000000) 10 900; OFee Root fee; OReceiver Root 77; OAdd 10 (100, 200) (2000000, 2000000) (0, 0);
   OSwap 5 11 (100, 200) 400000000; OSwap 5 11 (200, 100) 400000000].
Definition ex_sh (fee : Z) : amm := exrun ex0 (ex_sh_ops fee).
Definition op_ok_b (o : amm_op) : bool :=
  match o with
  | OAdd who _ d _ => user_b exC who && z_bounds_b d.1 && z_bounds_b d.2
  | ORemove who _ l => user_b exC who && z_bounds_b l
  | OCreate _ _ amts r _ => user_b exC r && z_bounds_b amts.1 && z_bounds_b amts.2
  | OSwap now who _ amt => user_b exC who && z_bounds_b amt && (0 <=? now)
  | OFee _ fee => (0 <=? fee) && (fee <=? PMILL)
  | OReceiver _ _ => true
  | _ => false
  end.
Lemma exrun_reach os s : amm_reachable exC allow_all s -> forallb op_ok_b os = true -> amm_reachable exC allow_all (exrun s os).
Proof.
  revert s. induction os as [|o os IH]; intros s R H; [exact R|]. cbn [forallb] in H. apply andb_prop in H as [H1 H2].
  change (exrun s (o :: os)) with (exrun (amm_exec exC allow_all s o) os). apply IH; auto. apply amm_reach_step; auto. clear IH H2 R.
  destruct o; cbn [amm_op_ok op_ok_b] in *; try discriminate H1; auto;
    repeat (apply andb_prop in H1 as [H1 ?]); repeat split; first [apply user_ex; assumption|apply u128_b; assumption|lia].
Qed.
Lemma ex0_reachable : amm_reachable exC allow_all ex0.
Proof. apply amm_reach_init, mk_ledger_wf. Qed.
Lemma ex_sh_ops_ok fee : (0 <=? fee) && (fee <=? PMILL) = true -> forallb op_ok_b (ex_sh_ops fee) = true.
Proof. intros H. unfold ex_sh_ops. cbn [forallb op_ok_b]. rewrite H. vm_compute. reflexivity. Qed.
Lemma ex_sh_reachable fee : (0 <=? fee) && (fee <=? PMILL) = true -> amm_reachable exC allow_all (ex_sh fee).
Proof. intros H. exact (exrun_reach (ex_sh_ops fee) ex0 ex0_reachable (ex_sh_ops_ok fee H)). Qed.
(** 40% takes half of the growth. *)
Theorem C82_protocol_fee_share_refuted :
  ~ (forall P C s p f p' L', cfg_ok C -> amm_reachable C P s -> protocol_fee_on s = true -> 0 < pfee s <= PMILL ->
       pools s !! pair_key 100 200 = Some p -> do_mint_protocol_fee P s p = Ok (f, p', L') ->
       let r := Z.sqrt (kprod p) in let r0 := Z.sqrt (p_base_last p * p_quote_last p) in let T := iss (led s) (p_lp p) in
       f * r * PMILL <= pfee s * Z.max 0 (r - r0) * (T + f)).
Proof.
  intros H.
  assert (A : someb (pools (ex_sh 400000) !! (200, 100)) (fun p => okb (do_mint_protocol_fee allow_all (ex_sh 400000) p) (fun r =>
     negb (r.1.1 * Z.sqrt (kprod p) * PMILL <=? 400000 * Z.max 0 (Z.sqrt (kprod p) - Z.sqrt (p_base_last p * p_quote_last p)) * (iss (led (ex_sh 400000)) (p_lp p) + r.1.1)))) = true)
    by (vm_compute; reflexivity).
  assert (B : protocol_fee_on (ex_sh 400000) = true /\ pfee (ex_sh 400000) = 400000) by (vm_compute; auto). destruct B as [B1 B2].
  assert (R : amm_reachable exC allow_all (ex_sh 400000)) by (apply ex_sh_reachable; vm_compute; reflexivity).
  set (s := ex_sh 400000) in *. clearbody s.
  apply someb_spec in A as (p & Hp & A). apply okb_spec in A as ([[f p'] L'] & Hf & A). apply negb_true_iff, Z.leb_gt in A. cbn [fst] in A.
  specialize (H allow_all exC s p f p' L' exC_ok R B1). rewrite B2 in H.
  specialize (H ltac:(split; [lia|vm_compute; discriminate]) Hp Hf). cbv zeta in H. lia.
Qed.
Print Assumptions C82_protocol_fee_share_refuted.
Example C82_example : someb (pools (ex_sh 500000) !! (200, 100)) (fun p => okb (do_mint_protocol_fee allow_all (ex_sh 500000) p)
  (fun r => 0 <? r.1.1)) = true /\ protocol_fee_on (ex_sh 500000) = true.
Proof. vm_compute. auto. Qed.
