(** * LsProps: property theorems C37-C41 (liquid staking: rate, matching, queue, ledgers, distribution). *)
From Verif Require Import Base MapSum Ledger AmmModel AmmEx LoansModel LoansSpec LoansProofs3 LoansProofs4 LoansProofs5 LoansEx
  LsModel LsSpec LsProofs LsDist LsProofs2 LsProofs3 LsProofs4 LsProofs5 LsProofs6 LsProofs7 LsProofs8 LsProofs9 LsProofs10 LsEx.

Notation any := any_call.
Notation sxe := (ls_exec (sxC MaxMin) sxE).
Notation hx l := (sxrun MaxMin l).

(** ** C37.  The exchange rate is in units of 10^-18 staking tokens per liquid token. *)
Theorem C37_rate_never_falls C E s s' :
  ls_cfg_ok C -> relay_ok E -> ls_reachable C E any s -> ls_steps C E any s s' -> ls_rate s <= ls_rate s'.
Proof.
  intros HC HE R H. apply (leffs_rate C E any). apply steps_leffs; auto. exact (reachable_lsi C E any s HC HE R).
Qed.
Print Assumptions C37_rate_never_falls.
(** it only moves when an era ends, and then to (everything staked - everything promised to unstakers) / (liquid tokens) *)
Theorem C37_rate_moves_with_the_era C E s c s' :
  ls_cfg_ok C -> relay_ok E -> ls_reachable C E any s -> ls_call_ok C c -> ls_exec C E s c = Ok s' -> ls_rate s' <> ls_rate s ->
  ends_era c /\ 0 < iss (ls_led s) (lc_liq C) /\
  ls_rate s' = (Z.min U128MAX (active_total s) + pool_stake s - pool_unstake s) * 10 ^ 18 / iss (ls_led s) (lc_liq C).
Proof.
  intros HC HE R Hc H Hr. destruct (rate_moves C E s c s' HC (reachable_lsi C E any s HC HE R) H Hr Hc) as (A1 & _ & A2 & A3 & _). auto.
Qed.
Print Assumptions C37_rate_moves_with_the_era.
(** staking and unstaking at the same rate never returns more than was staked *)
Theorem C37_round_trip C E s who amt s' y :
  ls_cfg_ok C -> relay_ok E -> ls_reachable C E any s -> ls_user C who -> is_u128 amt -> ls_exec C E s (KStake who amt) = Ok s' ->
  0 <= y <= bal (ls_led s') (lc_liq C) who - bal (ls_led s) (lc_liq C) who ->
  liquid_to_staking s' y = Some (ls_rate s' * y / 10 ^ 18) /\ ls_rate s' * y / 10 ^ 18 <= amt - lc_fees C.
Proof.
  intros HC HE R [U1 U2] Ha H Hy. pose proof (reachable_lsi C E any s HC HE R) as I. cbn [ls_exec] in H.
  destruct HC as (C1 & C2 & C3 & C4 & C5 & C6 & C7 & C8 & C9 & C10 & C11 & C12 & _).
  apply stake_full in H; [|apply I|apply I|apply Ha|apply C12]. destruct H as (v & L & H). cbv zeta in H. destruct H as (H1 & H2 & H3 & H4 & H5 & H6 & H7 & _ & _ & _ & B & _ & _ & ->).
  cbn [ls_rate st_ls_res st_ls_pool put_led st_ls_ln] in *.
  replace (bal (ls_led (st_ls_res _ _)) (lc_liq C) who) with (bal L (lc_liq C) who) in Hy by reflexivity.
  rewrite (B (lc_liq C) who) in Hy. unfold at_ in Hy. rewrite !(bool_decide_false (lc_liq C = lc_stk C /\ _)) in Hy by (intros [? _]; congruence).
  rewrite !(bool_decide_false (lc_liq C = lc_relay C /\ _)) in Hy by (intros [? _]; congruence). rewrite bool_decide_true in Hy by auto.
  assert (Hv : ls_rate s * y <= (amt - lc_fees C - ls_rf s * amt / PMILL) * FDIV) by (pose proof (i_rate _ _ I) as [? _]; nia).
  assert (Hd : ls_rate s * y / 10 ^ 18 <= amt - lc_fees C - ls_rf s * amt / PMILL) by (apply Z.div_le_upper_bound; [lia|]; rewrite (Z.mul_comm (10 ^ 18)); exact Hv).
  split; [|lia]. unfold liquid_to_staking, f_checked_mul_int. cbn [ls_rate st_ls_res st_ls_pool put_led st_ls_ln].
  pose proof (i_rate _ _ I) as [Hr _]. destruct Ha as [_ Ha]. assert (0 <= ls_rate s * y / 10 ^ 18) by (apply Z.div_pos; lia). destruct C12 as [C12 _].
  change FDIV with (10 ^ 18). apply chk_some. lia.
Qed.
Print Assumptions C37_round_trip.
Example C37_example :
  ls_reachable (sxC MaxMin) sxE any (hx hx7) /\ ls_rate (hx hx1) = 10 ^ 18 /\ ls_rate (hx hx7) = 1045018007202881152 /\
  active_total (hx hx7) = 31338 /\ iss (ls_led (hx hx7)) 51 = 29988 /\ bal (ls_led (hx hx7)) 51 7 = 142.
Proof. split; [apply hx7_reach|]. vm_compute. auto 10. Qed.

(** ** C38 *)
Theorem C38_matching p unbonding :
  pool_ok p -> 0 <= unbonding -> exists bond rebond unbond,
    matching p unbonding = Ok (bond, rebond, unbond) /\
    bond + rebond - unbond = free_stake p - free_unstake p /\ 0 <= bond /\ 0 <= rebond /\ 0 <= unbond /\
    (unbond = 0 \/ (bond = 0 /\ rebond = 0)) /\ rebond <= unbonding /\ (rebond < unbonding -> bond = 0) /\
    bond + rebond <= free_stake p /\ unbond <= free_unstake p.
Proof. exact (matching_ok p unbonding). Qed.
Print Assumptions C38_matching.
Theorem C38_reserved_at_most_total C E s :
  ls_cfg_ok C -> relay_ok E -> ls_reachable C E any s -> pool_ok (ls_pool s).
Proof. intros HC HE R. exact (i_pool _ _ (reachable_lsi C E any s HC HE R)). Qed.
Print Assumptions C38_reserved_at_most_total.
(** confirming an amount that was reserved always works, and takes it from both the total and the reserved part; what is
    left free on both sides cancels out *)
Theorem C38_confirming_stake p x : pool_ok p -> 0 <= x <= ra_res (mp_s p) ->
  exists p' y, consolidate_stake p x = Ok p' /\ pool_ok p' /\ 0 <= y /\
    ra_res (mp_s p') = ra_res (mp_s p) - x /\ ra_res (mp_u p') = ra_res (mp_u p) /\
    ra_tot (mp_s p') = ra_tot (mp_s p) - x - y /\ ra_tot (mp_u p') = ra_tot (mp_u p) - y.
Proof.
  intros Hp Hx. destruct (consolidate_stake_succeeds p x Hp Hx) as [p' Ep]. destruct (consolidate_stake_ok p x p' Hp (proj1 Hx) Ep) as (A1 & A2 & A3 & y & A4 & A5 & A6). exists p', y. auto 10.
Qed.
Print Assumptions C38_confirming_stake.
Theorem C38_confirming_unstake p x : pool_ok p -> 0 <= x <= ra_res (mp_u p) ->
  exists p' y, consolidate_unstake p x = Ok p' /\ pool_ok p' /\ 0 <= y /\
    ra_res (mp_u p') = ra_res (mp_u p) - x /\ ra_res (mp_s p') = ra_res (mp_s p) /\
    ra_tot (mp_u p') = ra_tot (mp_u p) - x - y /\ ra_tot (mp_s p') = ra_tot (mp_s p) - y.
Proof.
  intros Hp Hx. destruct (consolidate_unstake_succeeds p x Hp Hx) as [p' Ep]. destruct (consolidate_unstake_ok p x p' Hp (proj1 Hx) Ep) as (A1 & A2 & A3 & y & A4 & A5 & A6). exists p', y. auto 10.
Qed.
Print Assumptions C38_confirming_unstake.
Example C38_example :
  pool_ok (mkMP (mkRA 100 30) (mkRA 20 5)) /\ matching (mkMP (mkRA 100 30) (mkRA 20 5)) 15 = Ok (40, 15, 0) /\
  matching (mkMP (mkRA 100 30) (mkRA 20 5)) 90 = Ok (0, 55, 0) /\ matching (mkMP (mkRA 20 5) (mkRA 100 30)) 90 = Ok (0, 0, 55) /\
  consolidate_stake (mkMP (mkRA 100 90) (mkRA 20 10)) 90 = Ok (mkMP (mkRA 0 0) (mkRA 10 10)).
Proof.
  split; [|vm_compute; auto]. unfold pool_ok, ra_ok. cbn. assert (100 <= U128MAX) by (apply Z.leb_le; vm_compute; reflexivity). lia.
Qed.

(** ** C39 *)
(** unstaking adds one promise, due bonding-duration + 1 eras from now; what is due before that is untouched *)
Theorem C39_unstake_promise C E s who amt s' :
  ls_cfg_ok C -> relay_ok E -> ls_reachable C E any s -> ls_user C who -> is_u128 amt -> ls_exec C E s (KUnstake who amt RelayChain) = Ok s' ->
  let x := ls_rate s * (amt - ls_urf s * amt / 10 ^ 6) / 10 ^ 18 in let era := ls_era s + lc_bonding C + 1 in
  (chunk_sum (queue_of s who) + x <= U128MAX -> chunk_sum (queue_of s' who) = chunk_sum (queue_of s who) + x) /\
  (forall e, e < era -> due e (queue_of s' who) = due e (queue_of s who)) /\
  (forall c, c ∈ queue_of s' who -> c ∈ queue_of s who \/ c_era c = era) /\
  Z.of_nat (length (queue_of s' who)) <= 32.
Proof.
  intros HC HE R U Ha H. pose proof (reachable_lsi C E any s HC HE R) as I. cbn [ls_exec] in H. cbv zeta. change (10 ^ 6) with PMILL. change (10 ^ 18) with FDIV.
  apply unstake_full in H; [|discriminate|apply I|exact Ha]. unfold unstake_eff in H. cbv zeta in H.
  destruct H as (H1 & H2 & H3 & H4 & H5 & H6 & H7 & H8 & H9 & L & s4 & B & J & W & -> & s5 & [= <-] & ->).
  replace (queue_of (st_ls_pool _ _) who) with (add_chunk (queue_of s who) (ls_rate s * (amt - ls_urf s * amt / PMILL) / FDIV) (ls_era s + lc_bonding C + 1)) by (unfold queue_of at 2; cbn; rewrite lookup_insert; reflexivity).
  split; [apply add_chunk_sum; [exact (queue_ok C s who I)|apply H5]|]. split; [intros e He; apply add_chunk_due; exact He|]. split; [|exact H7]. intros c. apply add_chunk_in.
Qed.
Print Assumptions C39_unstake_promise.
(** a claim pays exactly what is due, keeps the rest, and cannot be repeated in the same era *)
Theorem C39_claim C E s o who s' :
  ls_cfg_ok C -> relay_ok E -> ls_reachable C E any s -> who <> ln_acct (lc_loans C) -> ls_exec C E s (KClaim o who) = Ok s' ->
  let amount := chunk_sum (due (ls_era s) (queue_of s who)) in
  0 < amount /\ moved (ls_led s) (ls_led s') (lc_stk C) (lc_acct C) who amount /\
  queue_of s' who = not_due (ls_era s) (queue_of s who) /\
  ls_pool s' = ls_pool s /\ ls_res s' = ls_res s /\ ls_leds s' = ls_leds s /\ ls_era s' = ls_era s /\
  (forall o' s'', ls_exec C E s' (KClaim o' who) <> Ok s'').
Proof.
  intros HC HE R Hw H. cbn [ls_exec] in H. apply claim_full in H as (l & n & Hl & H). cbv zeta in *. destruct H as (_ & H1 & H2 & H3 & ->).
  assert (Hq : queue_of s who = l) by (unfold queue_of; rewrite Hl; reflexivity). rewrite Hq. apply claim_user in H3 as [T ->]; [|exact Hw].
  assert (Hq' : queue_of (st_ls_unl (st_ls_ln s (st_led (ls_ln s) (ln_led n))) (claimed_queue s who l)) who = not_due (ls_era s) l).
  { unfold queue_of. cbn [ls_unl st_ls_unl]. rewrite (queue_claimed s who l Hl who). rewrite decide_True by auto. reflexivity. }
  split; [apply H1|]. split; [exact (transfer_moved _ _ _ _ _ _ _ _ T)|]. split; [exact Hq'|]. do 4 (split; [reflexivity|]).
  intros o' s''. cbn [ls_exec]. apply claim_nothing. rewrite Hq'. apply due_not_due.
Qed.
Print Assumptions C39_claim.
(** a claim for the lending pallet (instant unstakes) repays the pallet's loan and burns the collateral token *)
Theorem C39_claim_for_lending C E s o s' :
  ls_cfg_ok C -> relay_ok E -> ls_reachable C E any s -> ls_exec C E s (KClaim o (ln_acct (lc_loans C))) = Ok s' ->
  let amount := chunk_sum (due (ls_era s) (queue_of s (ln_acct (lc_loans C)))) in
  exists n owed, accrue (lc_loans C) (ls_ln s) (lc_stk C) = Ok n /\ borrow_balance n (lc_acct C) (lc_stk C) = Ok owed /\
    let repaid := Z.min owed amount in 0 < amount /\ 0 <= repaid <= amount /\
    bal (ls_led s') (lc_stk C) (lc_acct C) = bal (ls_led s) (lc_stk C) (lc_acct C) - repaid /\
    bal (ls_led s') (lc_stk C) (ln_acct (lc_loans C)) = bal (ls_led s) (lc_stk C) (ln_acct (lc_loans C)) + repaid /\
    queue_of s' (ln_acct (lc_loans C)) = not_due (ls_era s) (queue_of s (ln_acct (lc_loans C))).
Proof.
  intros HC HE R H. pose proof (reachable_lsi C E any s HC HE R) as I. cbn [ls_exec] in H. apply claim_full in H as (l & n & Hl & H). cbv zeta in *. destruct H as (_ & H1 & H2 & H3 & ->).
  assert (Hq : queue_of s (ln_acct (lc_loans C)) = l) by (unfold queue_of; rewrite Hl; reflexivity). rewrite Hq. apply claim_loans in H3 as (n1 & b & n2 & cf & x & n3 & y & A1 & A2 & A3 & A4 & A5 & A6 & A7 & A8 & ->).
  pose proof (repay_led _ _ _ _ _ _ _ A3) as T1. pose proof (redeem_led _ _ _ _ _ _ _ _ A7) as [Y T2]. rewrite (accrue_led _ _ _ _ A1) in T1.
  destruct HC as (C1 & C2 & C3 & C4 & C5 & C6 & C7 & C8 & _). set (rp := Z.min b _) in *.
  assert (Hb : 0 <= b) by (exact (proj1 (borrow_balance_u128 _ _ _ _ A2))).
  pose proof (transfer_spec _ _ _ _ _ _ _ _ T1) as (B1 & _). pose proof (transfer_spec _ _ _ _ _ _ _ _ T2) as (B2 & _). pose proof (burn_spec _ _ _ _ _ _ A8) as (_ & _ & B3 & _).
  exists n1, b. split; [exact A1|]. split; [exact A2|]. fold rp. split; [apply H1|]. split; [lia|]. change (ls_led (st_ls_unl _ _)) with (ln_led n). rewrite !B3, !B2, !B1. fold (ls_led s). unfold at_.
  rewrite !(bool_decide_false (lc_stk C = lc_col C /\ _)) by (intros [? _]; congruence). rewrite !(bool_decide_true (lc_stk C = lc_stk C /\ _ = _)) by auto.
  rewrite !(bool_decide_true (lc_stk C = lc_stk C /\ ln_acct (lc_loans C) = ln_acct (lc_loans C))) by auto.
  rewrite !(bool_decide_false (_ /\ lc_acct C = ln_acct (lc_loans C))) by (intros [_ ?]; congruence).
  rewrite !(bool_decide_false (_ /\ ln_acct (lc_loans C) = lc_acct C)) by (intros [_ ?]; congruence). split; [lia|]. split; [lia|].
  unfold queue_of. cbn [ls_unl st_ls_unl]. rewrite (queue_claimed s _ l Hl). rewrite decide_True by auto. reflexivity.
Qed.
Print Assumptions C39_claim_for_lending.
(** nobody else's calls touch a queue *)
Theorem C39_queue_is_private C E s c s' w :
  ls_cfg_ok C -> relay_ok E -> ls_reachable C E any s -> ls_call_ok C c -> ls_exec C E s c = Ok s' -> ~ touches_queue C c w -> ls_unl s' !! w = ls_unl s !! w.
Proof. intros HC HE R Hc H Hn. exact (f_queue _ _ _ _ (exec_frame C E s c s' (i_rf _ _ (reachable_lsi C E any s HC HE R)) Hc H) w Hn). Qed.
Print Assumptions C39_queue_is_private.
Example C39_example :
  ls_reachable (sxC MaxMin) sxE any (hx hx3) /\ queue_of (hx hx3) 100 = [mkChunk 3960 3] /\ ls_era (hx hx3) = 5 /\
  okb (sxe (hx hx3) (KClaim Root 100)) (fun s' => (bal (ls_led s') 50 100 =? bal (ls_led (hx hx3)) 50 100 + 3960) && bool_decide (queue_of s' 100 = [])) = true /\
  okb (sxe (hx hx1) (KUnstake 100 4000 RelayChain)) (fun s' => bool_decide (queue_of s' 100 = [mkChunk 3960 3])) = true /\
  ls_reachable (sxC MaxMin) sxE any (hx hx10) /\
  okb (sxe (hx hx10) (KClaim Root 1)) (fun s' => bal (ls_led s') 50 1 =? bal (ls_led (hx hx10)) 50 1 + 3921) = true.
Proof.
  split; [apply hx3_reach|]. do 4 (split; [vm_compute; reflexivity|]). split; [apply hx10_reach|]. vm_compute. reflexivity.
Qed.

(** ** C40 *)
(** every ledger of every reachable state is consistent *)
Theorem C40_ledgers_consistent C E s i l :
  ls_cfg_ok C -> relay_ok E -> ls_reachable C E any s -> ls_leds s !! i = Some l ->
  sl_total l = sl_active l + chunk_sum (sl_unl l) /\ 0 <= sl_active l /\ sl_total l <= U128MAX /\ Forall (fun c => 0 <= c_v c) (sl_unl l).
Proof. intros HC HE R H. exact (i_leds _ _ (reachable_lsi C E any s HC HE R) i l H). Qed.
Print Assumptions C40_ledgers_consistent.
Theorem C40_bond_extra l v l' :
  sled_ok l -> 0 <= v -> sl_bond_extra l v = Ok l' ->
  sled_ok l' /\ sl_active l' = sl_active l + v /\ sl_total l' = sl_total l + v /\ sl_unl l' = sl_unl l.
Proof. exact (sl_bond_extra_ok l v l'). Qed.
Print Assumptions C40_bond_extra.
Theorem C40_unbond l v era l' :
  sled_ok l -> 0 <= v -> sl_unbond l v era = Ok l' ->
  sled_ok l' /\ sl_active l' = sl_active l - v /\ sl_total l' = sl_total l /\ chunk_sum (sl_unl l') = chunk_sum (sl_unl l) + v /\
  (forall e, e < era -> due e (sl_unl l') = due e (sl_unl l)) /\ (forall c, c ∈ sl_unl l' -> c ∈ sl_unl l \/ c_era c = era).
Proof.
  intros Hl Hv H. destruct (sl_unbond_ok l v era l' Hl Hv H) as (A1 & A2 & A3 & A4). split; [exact A1|]. split; [exact A2|]. split; [exact A3|]. split; [exact A4|].
  unfold sl_unbond in H. bstep H x E1. injection H as <-. cbn [sl_unl]. split; [intros e He; apply add_chunk_due; exact He|intros c; apply add_chunk_in].
Qed.
Print Assumptions C40_unbond.
Theorem C40_rebond l v l' :
  sled_ok l -> 0 <= v -> sl_rebond l v = Ok l' ->
  sled_ok l' /\ sl_total l' = sl_total l /\ sl_active l' = sl_active l + Z.min v (chunk_sum (sl_unl l)) /\
  chunk_sum (sl_unl l') = chunk_sum (sl_unl l) - Z.min v (chunk_sum (sl_unl l)) /\
  (** the most recent chunks are taken first: what remains is a prefix, the last chunk of which may have shrunk *)
  (exists k, sl_unl l' = take k (sl_unl l) \/
    exists c c0, sl_unl l' = take k (sl_unl l) ++ [c] /\ sl_unl l !! k = Some c0 /\ c_era c = c_era c0 /\ c_v c <= c_v c0).
Proof.
  intros Hl Hv H. destruct (sl_rebond_ok l v l' Hl Hv H) as (A1 & A2 & A3 & A4). split; [exact A1|]. split; [exact A2|]. split; [exact A3|]. split; [exact A4|]. exact (rebond_lifo l v l' Hl Hv H).
Qed.
Print Assumptions C40_rebond.
Theorem C40_consolidate l era :
  sled_ok l ->
  sled_ok (sl_consolidate l era) /\ sl_active (sl_consolidate l era) = sl_active l /\ sl_unl (sl_consolidate l era) = not_due era (sl_unl l) /\
  sl_total (sl_consolidate l era) = sl_total l - chunk_sum (due era (sl_unl l)).
Proof. exact (sl_consolidate_ok l era). Qed.
Print Assumptions C40_consolidate.
Example C40_example :
  let l := mkSled 100 40 [mkChunk 10 3; mkChunk 20 5; mkChunk 30 6] in
  sled_ok l /\ sl_rebond l 40 = Ok (mkSled 100 80 [mkChunk 10 3; mkChunk 10 5]) /\ sl_rebond l 1000 = Ok (mkSled 100 100 []) /\
  sl_unbond l 15 6 = Ok (mkSled 100 25 [mkChunk 10 3; mkChunk 20 5; mkChunk 45 6]) /\ sl_unbond l 15 7 = Ok (mkSled 100 25 [mkChunk 10 3; mkChunk 20 5; mkChunk 30 6; mkChunk 15 7]) /\
  sl_consolidate l 5 = mkSled 70 40 [mkChunk 30 6] /\
  ls_leds (hx hx2) !! 0 = Some (mkSled 29846 25886 [mkChunk 3960 4]).
Proof. cbv zeta. split; [apply sled_okb_ok; vm_compute; reflexivity|]. vm_compute. auto 10. Qed.

(** ** C41.  A list element of a bond is (account, active stake, total stake); of an unbond or rebond (account, amount). *)
Theorem C41_bond_partial st l input cap mnb :
  0 <= input -> Forall (fun e => 0 <= e.1.2) l -> NoDup (map (fun e => e.1.1) l) ->
  let d := bond_dist st l input cap mnb in
  zsum (map snd d) <= input /\ NoDup (map fst d) /\
  forall i x, (i, x) ∈ d -> 0 < x /\ exists active total, (i, active, total) ∈ l /\ total + x <= cap /\ (st = MaxMin -> mnb <= active + x).
Proof. exact (bond_dist_ok st l input cap mnb). Qed.
Print Assumptions C41_bond_partial.
(** with no unlocking stake and every account above the minimum, the MaxMin strategy hands out all it can *)
Theorem C41_maxmin_bond_exact l input cap mnb :
  0 <= input -> mnb <= U128MAX -> Forall (fun e => e.2 = e.1.2 /\ mnb <= e.1.2) l ->
  zsum (map snd (bond_dist MaxMin l input cap mnb)) = Z.min input (zsum (map (fun e => Z.max 0 (cap - e.2)) l)).
Proof. exact (maxmin_bond_exact cap mnb l input). Qed.
Print Assumptions C41_maxmin_bond_exact.
Theorem C41_unbond st l input mnb :
  0 <= input -> 0 < mnb -> NoDup (map fst l) ->
  let d := unbond_dist st l input mnb in
  zsum (map snd d) <= input /\ NoDup (map fst d) /\
  (st = MaxMin -> zsum (map snd d) = Z.min input (zsum (map (fun e => Z.max 0 (e.2 - mnb)) l))) /\
  forall i x, (i, x) ∈ d -> 0 < x /\ exists active, (i, active) ∈ l /\ mnb <= active - x.
Proof. exact (unbond_dist_ok st l input mnb). Qed.
Print Assumptions C41_unbond.
Theorem C41_rebond st l input :
  0 <= input -> Forall (fun e => 0 <= e.2) l -> NoDup (map fst l) ->
  let d := rebond_dist st l input in
  zsum (map snd d) <= input /\ NoDup (map fst d) /\ (st = MaxMin -> zsum (map snd d) = Z.min input (zsum (map snd l))) /\
  forall i x, (i, x) ∈ d -> 0 < x /\ exists unlocking, (i, unlocking) ∈ l /\ x <= unlocking.
Proof. exact (rebond_dist_ok st l input). Qed.
Print Assumptions C41_rebond.
(** the Average strategy can leave an account below the minimum bond: active 2 of 20, room 5 under the cap of 25 *)
Theorem C41_minimum_bond_refuted :
  exists l input cap mnb i x, 0 <= input /\ Forall (fun e => 0 <= e.1.2) l /\ NoDup (map (fun e => e.1.1) l) /\
    (i, x) ∈ bond_dist Average l input cap mnb /\ forall active total, (i, active, total) ∈ l -> active + x < mnb.
Proof.
  exists [(0, 2, 20)], 10, 25, 10, 0, 5. split; [lia|]. split; [repeat constructor; cbn; lia|]. split; [repeat constructor; set_solver|].
  split; [vm_compute; left|]. intros a t H. apply elem_of_list_singleton in H. injection H as -> ->. lia.
Qed.
Print Assumptions C41_minimum_bond_refuted.
Example C41_example :
  bond_dist MaxMin [(0, 50, 50); (1, 20, 20); (2, 90, 90)] 65 100 10 = [(1, 65)] /\
  bond_dist MaxMin [(0, 50, 50); (1, 20, 20); (2, 90, 90)] 105 100 10 = [(1, 80); (0, 25)] /\
  bond_dist Average [(0, 50, 50); (1, 20, 20); (2, 90, 90)] 60 100 10 = [(0, 20); (1, 20); (2, 10)] /\
  unbond_dist MaxMin [(0, 50); (1, 20); (2, 90)] 100 10 = [(2, 80); (0, 20)] /\
  rebond_dist MaxMin [(0, 50); (1, 20); (2, 90)] 100 = [(2, 90); (0, 10)].
Proof. vm_compute. auto 10. Qed.
