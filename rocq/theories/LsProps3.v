(** * LsProps3: property theorems C54-C63 (liquid staking: fast unstaking, backing, responses, liveness, origins). *)
From Verif Require Import Base MapSum Ledger AmmModel AmmEx LoansModel LoansSpec LoansProofs3 LoansProofs4 LoansProofs5 LoansEx
  LsModel LsSpec LsProofs LsDist LsProofs2 LsProofs3 LsProofs4 LsProofs5 LsProofs6 LsProofs7 LsProofs8 LsProofs9 LsProofs10 LsEx.

Notation any := any_call.
Notation sxe := (ls_exec (sxC MaxMin) sxE).
Notation hx l := (sxrun MaxMin l).

(** ** C54.  Fast unstaking.  Asking moves no token: the request is recorded, never above what the caller can spend. *)
Theorem C54_request C E s who amt s' :
  ls_cfg_ok C -> relay_ok E -> ls_reachable C E any s -> ls_user C who -> is_u128 amt -> ls_exec C E s (KUnstake who amt MatchingPool) = Ok s' ->
  ls_led s' = ls_led s /\ ls_pool s' = ls_pool s /\
  ls_fast s' !! who = Some (Z.min (Z.min U128MAX (default 0 (ls_fast s !! who) + (amt - ls_urf s * amt / 10 ^ 6))) (red E s (lc_liq C) who)) /\
  red E s (lc_liq C) who <= bal (ls_led s) (lc_liq C) who.
Proof.
  intros HC HE R U Ha H. pose proof (reachable_lsi C E any s HC HE R) as I. cbn [ls_exec] in H. apply unstake_pool in H; [|apply I|exact Ha]. cbv zeta in H. destruct H as (H1 & H2 & H3 & H4 & ->).
  split; [reflexivity|]. split; [reflexivity|]. cbn [ls_fast st_ls_fast]. rewrite lookup_insert. change (10 ^ 6) with PMILL. split.
  - f_equal. f_equal. unfold saturating_add, sat128. pose proof U128MAX_pos. set (rs := ls_urf s * amt / PMILL) in *. clearbody rs. assert (0 <= default 0 (ls_fast s !! who)) by (destruct (ls_fast s !! who) as [b|] eqn:Ef; [apply (i_fast _ _ I who b Ef)|cbn; lia]). lia.
  - pose proof (proj1 (wf_of C s I)) as Hw. apply red_bal. apply Hw.
Qed.
Print Assumptions C54_request.
(** Matching one request: [m] liquid tokens are taken, the fee part goes to the fee receiver, the rest is burnt and paid out at
    the stored rate from stake that no relay-chain request has reserved. *)
Theorem C54_match C E s o w s' :
  ls_cfg_ok C -> relay_ok E -> ls_reachable C E any s -> w <> lc_fee_rcv C -> ls_exec C E s (KFastMatch o [w]) = Ok s' ->
  (ls_fast s !! w = None /\ s' = s) \/
  exists asked, ls_fast s !! w = Some asked /\
    let request := Z.min asked (red E s (lc_liq C) w) in
    let available := (10 ^ 36 / ls_rate s) * (pool_stake s - locked_stake s) / 10 ^ 18 in
    let m := Z.min request available in let fee := Z.min U128MAX (lc_fast_fee C * m / 10 ^ 18) in
    let burnt := Z.max 0 (m - fee) in let paid := ls_rate s * burnt / 10 ^ 18 in
    0 <= m /\ 0 <= fee /\ 0 <= paid /\ paid <= pool_stake s - locked_stake s /\
    bal (ls_led s') (lc_liq C) w = bal (ls_led s) (lc_liq C) w - burnt - fee /\
    bal (ls_led s') (lc_liq C) (lc_fee_rcv C) = bal (ls_led s) (lc_liq C) (lc_fee_rcv C) + fee /\
    iss (ls_led s') (lc_liq C) = iss (ls_led s) (lc_liq C) - burnt /\
    bal (ls_led s') (lc_stk C) w = bal (ls_led s) (lc_stk C) w + paid /\
    bal (ls_led s') (lc_stk C) (lc_acct C) = bal (ls_led s) (lc_stk C) (lc_acct C) - paid /\
    pool_stake s' = pool_stake s - paid /\ locked_stake s' = locked_stake s /\ pool_unstake s' = pool_unstake s /\
    ls_fast s' !! w = (if request =? m then None else Some (request - m)).
Proof.
  intros HC HE R Hw H. pose proof (reachable_lsi C E any s HC HE R) as I. cbn [ls_exec] in H. unfold fast_match_unstake in H. bstep H u E1. cbn [fast_match_all] in H. bstep H s1 E2. injection H as <-.
  assert (Cf : 0 <= lc_fast_fee C) by (destruct HC as (_ & _ & _ & _ & _ & _ & _ & _ & _ & _ & _ & _ & _ & _ & _ & _ & [K _] & _); exact K).
  apply fast_full in E2; [|exact (i_pool _ _ I)|apply I|exact Cf|exact (wf_of C s I)|intros b Hb; apply (i_fast _ _ I w b Hb)].
  destruct E2 as [[-> E2]|(b & av & Hb & E2)]; [left; auto|]. right. exists b. split; [exact Hb|]. cbv zeta in *. destruct E2 as (A1 & A2 & E2).
  assert (E36 : 10 ^ 36 = FDIV * FDIV) by (vm_compute; reflexivity). rewrite E36. clear E36. change (10 ^ 18) with FDIV. change (pool_stake s - locked_stake s) with (free_stake (ls_pool s)). rewrite <- A2.
  destruct (i_fast _ _ I w b Hb) as [[U1 U2] Hb0]. pose proof (red_bal E s (lc_liq C) w (proj1 (wf_of C s I) _ _)) as Hr.
  set (rq := Z.min b (red E s (lc_liq C) w)) in *. set (m := Z.min rq av) in *. set (fee := Z.min U128MAX _) in *. set (bu := Z.max 0 (m - fee)) in *. set (x := ls_rate s * bu / FDIV) in *.
  assert (Hrest : (if Z.max 0 (rq - m) =? 0 then delete w (ls_fast s) else <[w := Z.max 0 (rq - m)]> (ls_fast s)) !! w = if rq =? m then None else Some (rq - m)).
  { assert (m <= rq) by lia. destruct (rq =? m) eqn:Em.
    - replace (Z.max 0 (rq - m) =? 0) with true by lia. apply lookup_delete.
    - replace (Z.max 0 (rq - m) =? 0) with false by lia. rewrite lookup_insert. f_equal. lia. }
  pose proof (i_pool _ _ I) as Hp. assert (Hf : 0 <= free_stake (ls_pool s)) by (destruct Hp as [[? ?] _]; unfold free_stake; lia). pose proof U128MAX_pos as HU.
  destruct HC as (C1 & C2 & C3 & C4 & C5 & C6 & C7 & C8 & C9 & C10 & _).
  destruct E2 as [[M ->]|(L & M & F0 & X0 & X1 & B & J & W & ->)].
  - assert (F : fee = 0) by (subst fee; rewrite M, Z.mul_0_r; change (0 / FDIV) with 0; apply Z.min_r; clear -HU; lia). assert (Bu : bu = 0) by (subst bu; rewrite M, F; reflexivity). assert (X : x = 0) by (subst x; rewrite Bu, Z.mul_0_r; reflexivity).
    assert (M0 : 0 <= m) by (rewrite M; reflexivity). clearbody x bu fee m. subst x bu fee. split; [lia|]. split; [lia|]. split; [lia|]. split; [lia|]. cbn [st_ls_fast ls_fast]. change (ls_led (st_ls_fast s _)) with (ls_led s).
    do 5 (split; [lia|]). split; [unfold pool_stake; cbn; lia|]. split; [reflexivity|]. split; [reflexivity|]. exact Hrest.
  - clearbody x bu fee. split; [lia|]. split; [exact F0|]. split; [exact X0|]. split; [exact X1|].
    change (ls_led (st_ls_fast _ _)) with L. rewrite !B, J. unfold at_.
    rewrite !(bool_decide_false (lc_stk C = lc_liq C /\ _)) by (intros [? _]; congruence). rewrite !(bool_decide_false (lc_liq C = lc_stk C /\ _)) by (intros [? _]; congruence).
    rewrite !(bool_decide_true (_ /\ w = w)) by auto. rewrite !(bool_decide_true (_ /\ lc_fee_rcv C = lc_fee_rcv C)) by auto. rewrite !(bool_decide_true (_ /\ lc_acct C = lc_acct C)) by auto.
    rewrite !(bool_decide_false (_ /\ w = _)) by (intros [_ ?]; congruence). rewrite !(bool_decide_false (_ /\ lc_fee_rcv C = _)) by (intros [_ ?]; congruence).
    rewrite !(bool_decide_false (_ /\ lc_acct C = _)) by (intros [_ ?]; congruence). rewrite bool_decide_true by reflexivity.
    do 5 (split; [lia|]). split; [reflexivity|]. split; [reflexivity|]. split; [reflexivity|]. exact Hrest.
Qed.
Print Assumptions C54_match.
Theorem C54_cancel C E s who amt s' :
  ls_exec C E s (KCancel who amt) = Ok s' ->
  ls_led s' = ls_led s /\ ls_pool s' = ls_pool s /\
  ls_fast s' !! who = Some (Z.max 0 (Z.min (default 0 (ls_fast s !! who)) (red E s (lc_liq C) who) - amt)).
Proof.
  intros H. cbn [ls_exec] in H. unfold cancel_unstake in H. bstep H lq El. apply liq_ok in El as ->. injection H as <-. split; [reflexivity|]. split; [reflexivity|]. cbn [ls_fast st_ls_fast]. rewrite lookup_insert. reflexivity.
Qed.
Print Assumptions C54_cancel.
Example C54_example :
  ls_reachable (sxC MaxMin) sxE any (hx hx6) /\ ls_fast (hx hx6) !! 100 = Some 3960 /\ 100 <> lc_fee_rcv (sxC MaxMin) /\
  okb (sxe (hx hx6) (KFastMatch Root [100])) (fun s' => (bal (ls_led s') 50 100 =? bal (ls_led (hx hx6)) 50 100 + 3921) && (bal (ls_led s') 51 7 =? 39) && bool_decide (ls_fast s' !! 100 = None)) = true /\
  okb (sxe (hx hx6) (KCancel 100 960)) (fun s' => bool_decide (ls_fast s' !! 100 = Some 3000)) = true.
Proof. split; [apply hx6_reach|]. split; [vm_compute; reflexivity|]. split; [discriminate|]. split; vm_compute; reflexivity. Qed.

(** ** C55.  The pallet account always holds the reserves plus everything that waits to be bonded. *)
Theorem C55_pallet_solvent C E s :
  ls_cfg_ok C -> relay_ok E -> ls_reachable C E any s -> 0 <= ls_res s /\ 0 <= pool_stake s /\ ls_res s + pool_stake s <= bal (ls_led s) (lc_stk C) (lc_acct C).
Proof.
  intros HC HE R. pose proof (reachable_lsi C E any s HC HE R) as I. split; [exact (i_res _ _ I)|]. split; [|exact (i_solv _ _ I)]. destruct (i_pool _ _ I) as [(K1 & K2 & _) _]. unfold pool_stake. lia.
Qed.
Print Assumptions C55_pallet_solvent.
Example C55_example : ls_reachable (sxC MaxMin) sxE any (hx hx6) /\ ls_res (hx hx6) = 250 /\ pool_stake (hx hx6) = 19898 /\ bal (ls_led (hx hx6)) 50 5 = 20148.
Proof. split; [apply hx6_reach|]. vm_compute. auto. Qed.

(** ** C56.  Everything promised to unstakers is covered: by free tokens of the pallet, by stake that is unlocking on the relay
    chain, or by unstake amounts still to be matched.  Governance does not overwrite a ledger with less unlocking stake. *)
Theorem C56_promises_covered C E (Q : lst -> ls_call -> Prop) s :
  ls_cfg_ok C -> relay_ok E -> (forall s c, Q s c -> led_kept s c) -> ls_reachable C E Q s ->
  queue_total s <= (bal (ls_led s) (lc_stk C) (lc_acct C) - ls_res s - pool_stake s) + unbonding_total s + pool_unstake s.
Proof. intros HC HE HQ R. pose proof (reachable_slack C E Q s HC HE HQ R) as K. unfold slack in K. lia. Qed.
Print Assumptions C56_promises_covered.
(** ** C57.  All liquid tokens at the stored rate are worth at most the active stake plus what waits to be bonded minus what
    waits to be unbonded - as long as no confirmed rebond exceeds what is unlocking, and governance lowers no ledger. *)
Theorem C57_liquid_tokens_backed_partial C E (Q : lst -> ls_call -> Prop) s :
  ls_cfg_ok C -> relay_ok E -> (forall s c, Q s c -> value_kept s c) -> ls_reachable C E Q s ->
  ls_rate s * iss (ls_led s) (lc_liq C) <= (active_total s + pool_stake s - pool_unstake s) * 10 ^ 18.
Proof. intros HC HE HQ R. pose proof (reachable_worth C E Q s HC HE HQ R) as K. unfold worth in K. change (10 ^ 18) with FDIV. lia. Qed.
Print Assumptions C57_liquid_tokens_backed_partial.
(** without that condition it fails: the same unlocking stake is asked to be rebonded in two eras, both are confirmed *)
Theorem C57_refuted :
  exists C E s, ls_cfg_ok C /\ relay_ok E /\ ls_reachable C E any s /\
    (active_total s + pool_stake s - pool_unstake s) * 10 ^ 18 < ls_rate s * iss (ls_led s) (lc_liq C).
Proof.
  exists (sxC MaxMin), sxE, (hx hx4). split; [apply sxC_ok|]. split; [apply sxE_ok|]. split; [apply hx4_reach|]. vm_compute. reflexivity.
Qed.
Print Assumptions C57_refuted.
(** a guard that meets both conditions, and the history of a whole cycle under it *)
Definition both_kept (s : lst) (c : ls_call) : Prop := led_kept s c /\ value_kept s c.
Definition both_b (s : lst) (c : ls_call) : bool :=
  match c with
  | KForceLedger _ _ _ => false
  | KSetLedger _ i l' _ => active_total s + sl_active l' + pool_stake s <=? U128MAX
  | KNotify _ _ q (Some true) => match ls_reqs s !! q with Some (RRebond i x) => match ls_leds s !! i with Some l => x <=? chunk_sum (sl_unl l) | None => false end | _ => true end
  | _ => true
  end.
Lemma both_b_ok s c : match c with KSetLedger _ _ _ _ => False | _ => True end -> both_b s c = true -> both_kept s c.
Proof.
  intros Hc H. unfold both_kept. destruct c; cbn in *; try discriminate; try contradiction; auto. split; [auto|]. destruct r as [[|]|]; auto.
  intros i x l Hq Hl. rewrite Hq, Hl in H. lia.
Qed.
Definition both_b2 (s : lst) (c : ls_call) : bool := match c with KSetLedger _ _ _ _ => false | _ => both_b s c end.
Example C56_C57_example :
  (forall s c, both_kept s c -> led_kept s c) /\ (forall s c, both_kept s c -> value_kept s c) /\
  exists s, ls_reachable (sxC MaxMin) sxE both_kept s /\ queue_total s = 3960 /\ unbonding_total s = 3960 /\ active_total s = 25886 /\
    bal (ls_led s) 50 5 - ls_res s - pool_stake s = 0 /\ pool_unstake s = 0 /\ ls_rate s = 10 ^ 18 /\ iss (ls_led s) 51 = 25886.
Proof.
  split; [intros s c [? _]; assumption|]. split; [intros s c [_ ?]; assumption|]. exists (sacts_run (sxC MaxMin) sxE both_b2 sx0 hx2). split.
  - apply (sacts_reach (sxC MaxMin) sxE both_kept both_b2); [apply sxC_ok|exact sxE_ok| |apply sx0_reach|unfold hx2, hx1; cbn [app]; sx_ok].
    intros s c H. apply both_b_ok; destruct c; auto; try discriminate.
  - vm_compute. auto 10.
Qed.

(** ** C58.  What is reserved in the matching pool is exactly what pending relay-chain requests asked for. *)
Theorem C58_reserved_is_requested C E s :
  ls_cfg_ok C -> relay_ok E -> ls_reachable C E any s ->
  locked_stake s = msum (fun _ r => req_stake r) (ls_reqs s) /\ locked_unstake s = msum (fun _ r => req_unstake r) (ls_reqs s) /\
  (forall q r, ls_reqs s !! q = Some r -> req_idx r ∈ lc_idx C /\ q < ls_qid s).
Proof.
  intros HC HE R. pose proof (reachable_lsi C E any s HC HE R) as I. split; [symmetry; exact (i_locks _ _ I)|]. split; [symmetry; exact (i_locku _ _ I)|].
  intros q r Hq. split; [exact (proj2 (i_known _ _ I) q r Hq)|apply (i_reqs _ _ I q r Hq)].
Qed.
Print Assumptions C58_reserved_is_requested.
Definition hx11 : list sact := hx1 ++ [SCall (KStake 102 20000); SRelay 110; SCall KInit; SRelay 120; SCall KInit].
Lemma hx11_reach : ls_reachable (sxC MaxMin) sxE any (hx hx11). Proof. apply sxrun_reach; unfold hx11, hx1; cbn [app]; sx_ok. Qed.
Example C58_example : ls_reachable (sxC MaxMin) sxE any (hx hx11) /\ locked_stake (hx hx11) = 19898 /\ ls_reqs (hx hx11) !! 1 = Some (RBond 1 19898).
Proof. split; [apply hx11_reach|]. vm_compute. auto. Qed.

(** ** C59.  Wanted: when the relay chain reports that a request failed, the request is closed and what it reserved is free again. *)
(** what is true: a failed (or malformed) response changes nothing at all *)
Theorem C59_failed_response_harmless_partial C E s resp o q r s' :
  r <> Some true -> ls_exec C E s (KNotify resp o q r) = Ok s' -> s' = s.
Proof. intros Hr H. cbn [ls_exec] in H. exact (proj2 (notify_kept C E s resp o q r s' H) Hr). Qed.
Print Assumptions C59_failed_response_harmless_partial.
(** so the request stays pending in every later state until somebody reports its success, its amount stays reserved, and as
    long as that is so no staking ledger can be updated, neither with a proof nor by governance *)
Theorem C59_only_success_closes C E (Q : lst -> ls_call -> Prop) s s' q r :
  ls_cfg_ok C -> relay_ok E -> ls_reachable C E any s -> (forall s resp o, ~ Q s (KNotify resp o q (Some true))) ->
  ls_steps C E Q s s' -> ls_reqs s !! q = Some r ->
  ls_reqs s' !! q = Some r /\ (forall o i l p s'', ls_exec C E s' (KSetLedger o i l p) <> Ok s'' /\ ls_exec C E s' (KForceLedger o i l) <> Ok s'').
Proof.
  intros HC HE R HQ H Hq. pose proof (steps_pending C E Q q HQ s s' r HC HE (reachable_lsi C E any s HC HE R) H Hq) as K. split; [exact K|].
  intros o i l p s''. exact (locked_ledger C E s' q r o i l p K s'').
Qed.
Print Assumptions C59_only_success_closes.
Theorem C59_refuted :
  exists C E s q r s', ls_cfg_ok C /\ relay_ok E /\ ls_reachable C E any s /\ ls_reqs s !! q = Some r /\ 0 < req_stake r /\
    ls_exec C E s (KNotify true Root q (Some false)) = Ok s' /\ ls_reqs s' !! q = Some r /\ locked_stake s' = locked_stake s.
Proof.
  exists (sxC MaxMin), sxE, (hx hx11), 1, (RBond 1 19898), (hx hx11). split; [apply sxC_ok|]. split; [apply sxE_ok|]. split; [apply hx11_reach|].
  split; [vm_compute; reflexivity|]. split; [cbn; lia|].
  assert (Hq : ls_reqs (hx hx11) !! 1 = Some (RBond 1 19898)) by (vm_compute; reflexivity).
  split; [|split; [exact Hq|reflexivity]]. cbn [ls_exec]. unfold notification. cbn [orb ensure rbind]. rewrite Hq. reflexivity.
Qed.
Print Assumptions C59_refuted.

(** ** C60.  Liquid staking never breaks the lending pallet: its part of the state stays one that lending itself can reach, so
    every lending theorem (C26-C36, C49-C51) holds with liquid staking running. *)
Theorem C60_lending_intact C E s :
  ls_cfg_ok C -> relay_ok E -> ls_reachable C E any s -> loans_reachable (lc_loans C) (e_pol E) (ls_ln s).
Proof. intros HC HE R. exact (ls_loans_reachable C E any s HC HE R). Qed.
Print Assumptions C60_lending_intact.
Example C60_example : ls_reachable (sxC MaxMin) sxE any (hx hx10) /\ loans_reachable lxC allow_all (ls_ln (hx hx10)) /\ m_borrows (acc_of (ls_ln (hx hx10)) 50) = 3921.
Proof. split; [apply hx10_reach|]. split; [exact (C60_lending_intact (sxC MaxMin) sxE _ (sxC_ok _) sxE_ok (hx10_reach _))|]. vm_compute. reflexivity. Qed.

(** ** C61.  Wanted: the unstake reserves are held by the pallet.  False: a fast-unstake request counts its reserve share, but
    takes no token. *)
Theorem C61_unstake_reserves_held_refuted :
  exists C E s, ls_cfg_ok C /\ relay_ok E /\ ls_reachable C E any s /\ bal (ls_led s) (lc_liq C) (lc_acct C) < ls_ures s.
Proof. exists (sxC MaxMin), sxE, (hx hx6). split; [apply sxC_ok|]. split; [apply sxE_ok|]. split; [apply hx6_reach|]. vm_compute. reflexivity. Qed.
Print Assumptions C61_unstake_reserves_held_refuted.

(** ** C62.  A relay-chain response never panics, if a confirmed unbond does not exceed the active stake and a confirmed bond
    does not overflow the ledger. *)
Theorem C62_response_no_panic_partial C E s resp o q ok :
  ls_cfg_ok C -> relay_ok E -> ls_reachable C E any s ->
  (ok = Some true -> forall r l, ls_reqs s !! q = Some r -> ls_leds s !! req_idx r = Some l ->
     match r with RBondExtra _ x => sl_total l + x <= U128MAX | RUnbond _ x => x <= sl_active l | _ => True end) ->
  ls_era s + lc_bonding C <= U32MAX ->
  ls_exec C E s (KNotify resp o q ok) <> Panic.
Proof.
  intros HC HE R H He. cbn [ls_exec]. apply notification_np; [exact (reachable_lsi C E any s HC HE R)|]. intros Hok r Hq. specialize (H Hok r).
  destruct r as [i x|i x|i x|i x|i x|i x]; cbn in *; auto.
Qed.
Print Assumptions C62_response_no_panic_partial.
Theorem C62_refuted :
  exists C E s q, ls_cfg_ok C /\ relay_ok E /\ ls_reachable C E any s /\ is_Some (ls_reqs s !! q) /\ ls_exec C E s (KNotify true Root q (Some true)) = Panic.
Proof.
  exists (sxC MaxMin), sxE, (hx hx5), 3. split; [apply sxC_ok|]. split; [apply sxE_ok|]. split; [apply hx5_reach|]. split; [|vm_compute; reflexivity].
  destruct (ls_reqs (hx hx5) !! 3) eqn:E; [eauto|]. assert (K : bool_decide (ls_reqs (hx hx5) !! 3 = None) = false) by (vm_compute; reflexivity). apply bool_decide_eq_false in K. congruence.
Qed.
Print Assumptions C62_refuted.

(** ** C63.  Eras advance and the matching goes through, if messages to the relay chain can be sent and paid for, no ledger is
    full, and (for the Average strategy) the ledger cap is not below the minimum bond. *)
Theorem C63_block_hook_succeeds_partial C E s :
  ls_cfg_ok C -> relay_ok E -> ls_reachable C E any s -> xcm_open E -> 0 < lc_mnb C -> 0 < lc_eralen C -> 0 <= ls_start s -> (lc_strat C = Average -> lc_mnb C <= ls_cap s) ->
  (forall i l, ls_leds s !! i = Some l -> Z.of_nat (length (sl_unl l)) < 32) ->
  xcm_funded C s (Z.of_nat (3 * length (lc_idx C) + size (ls_leds s))) ->
  exists s', ls_exec C E s KInit = Ok s' /\
    (lc_eralen C <= ls_rblock s - ls_start s -> ls_era s' = Z.min U32MAX (ls_era s + (ls_rblock s - ls_start s) / lc_eralen C) /\ ls_start s' = ls_rblock s) /\
    (ls_rblock s - ls_start s < lc_eralen C -> ls_era s' = ls_era s /\ ls_start s' = ls_start s).
Proof.
  intros HC HE R HX H1 H2 H3 H4 H5 H6. destruct (init_live C E s HX HC (reachable_lsi C E any s HC HE R) H1 H4 H5 H6) as (s' & K1 & K2 & K3). exists s'. split; [exact K1|]. split; auto.
Qed.
Print Assumptions C63_block_hook_succeeds_partial.
(** without the XCM fees the era does not advance *)
Theorem C63_refuted :
  exists C E s, ls_cfg_ok C /\ relay_ok E /\ ls_reachable C E any s /\ xcm_open E /\ 0 < lc_mnb C /\ 0 < lc_eralen C /\ ls_start s + 2 * lc_eralen C <= ls_rblock s /\
    ls_exec C E s KInit = Err "InsufficientXcmFees".
Proof.
  exists (sxC MaxMin), sxE, (hx hx8). split; [apply sxC_ok|]. split; [apply sxE_ok|]. split; [apply hx8_reach|]. split; [split; reflexivity|]. split; [reflexivity|]. split; [reflexivity|]. split; [|vm_compute; reflexivity]. apply Z.leb_le. vm_compute. reflexivity.
Qed.
Print Assumptions C63_refuted.
Definition hx12 : list sact := hx1 ++ [SCall (KStake 102 20000); SCall (KStake 102 20000); SCall (KStake 102 20000); SRelay 110].
Lemma hx12_reach : ls_reachable (sxC MaxMin) sxE any (hx hx12). Proof. apply sxrun_reach; unfold hx12, hx1; cbn [app]; sx_ok. Qed.
Example C63_example :
  ls_reachable (sxC MaxMin) sxE any (hx hx12) /\ xcm_open sxE /\ xcm_funded (sxC MaxMin) (hx hx12) (Z.of_nat (3 * length (lc_idx (sxC MaxMin)) + size (ls_leds (hx hx12)))) /\
  (forall i l, ls_leds (hx hx12) !! i = Some l -> Z.of_nat (length (sl_unl l)) < 32) /\ ls_start (hx hx12) = 0 /\ ls_rblock (hx hx12) = 110 /\
  okb (sxe (hx hx12) KInit) (fun s' => ls_era s' =? ls_era (hx hx12) + 1) = true.
Proof.
  split; [exact hx12_reach|]. split; [split; reflexivity|]. split.
  - exists 1. split; [lia|]. split.
    + intros k x Hk. assert (Em : ls_xfee (hx hx12) = {[0 := 1]}) by (vm_compute; reflexivity). rewrite Em in Hk. clear Em. destruct (decide (k = 0)) as [->|Hn]; [rewrite lookup_singleton in Hk; injection Hk as <-; lia|]. rewrite lookup_singleton_ne in Hk by congruence. discriminate Hk.
    + apply Z.leb_le. vm_compute. reflexivity.
  - split; [|vm_compute; auto]. intros i l Hl. assert (Em : ls_leds (hx hx12) = {[0 := mkSled 29846 29846 []]}) by (vm_compute; reflexivity). rewrite Em in Hl. clear Em.
    destruct (decide (i = 0)) as [->|Hn]; [rewrite lookup_singleton in Hl; injection Hl as <-; reflexivity|]. rewrite lookup_singleton_ne in Hl by congruence. discriminate Hl.
Qed.

(** ** C48, liquid staking: parameters, ledgers, requests and eras change only through calls with the configured origin. *)
Theorem C48_liquid_staking_origins C E s c s' :
  ls_cfg_ok C -> relay_ok E -> ls_reachable C E any s -> ls_call_ok C c -> ls_exec C E s c = Ok s' ->
  (forall o, ls_governance c = Some o -> lc_update_org C o = true) /\
  (forall o, ls_relay_call c = Some o -> lc_relay_org C o = true) /\
  (forall o, ls_agent_call c = Some o -> lc_relay_org C o = true \/ exists w, o = Signed w /\ lc_member C w = true) /\
  (ls_params s' <> ls_params s -> exists o, ls_governance c = Some o /\ lc_update_org C o = true) /\
  (ls_res s' < ls_res s -> exists o r x, c = KReduceReserves o r x /\ lc_update_org C o = true) /\
  (ls_leds s' <> ls_leds s -> sets_ledgers c) /\ (ls_era s' <> ls_era s -> sets_era c) /\ (ls_rate s' <> ls_rate s -> ends_era c) /\
  (forall w, ls_fast s' !! w <> ls_fast s !! w -> touches_fast c w).
Proof.
  intros HC HE R Hc H. pose proof (exec_frame C E s c s' (i_rf _ _ (reachable_lsi C E any s HC HE R)) Hc H) as F.
  split; [exact (f_gov _ _ _ _ F)|]. split; [exact (f_relay _ _ _ _ F)|]. split; [exact (f_agent _ _ _ _ F)|].
  split; [intros K; destruct (f_params _ _ _ _ F) as [K'|K']; [contradiction|exact K']|].
  split; [intros K; destruct (f_res _ _ _ _ F K) as (o & r & x & ->); exists o, r, x; split; [reflexivity|]; exact (f_gov _ _ _ _ F o eq_refl)|].
  assert (D : forall P : Prop, (P \/ ~ P) -> ~ ~ P -> P) by tauto.
  split; [intros K; apply D; [destruct c; cbn; auto; destruct r as [[|]|]; auto|]; intros K'; apply K, (f_leds _ _ _ _ F K')|].
  split; [intros K; apply D; [destruct c; cbn; auto|]; intros K'; apply K, (f_era _ _ _ _ F K')|].
  split; [intros K; apply D; [destruct c; cbn; auto|]; intros K'; apply K, (f_rate _ _ _ _ F K')|].
  intros w K. apply D; [|intros K'; apply K, (f_fast _ _ _ _ F w K')]. destruct c; cbn; auto.
  - destruct pr; auto. destruct (decide (who = w)); auto.
  - destruct (decide (who = w)); auto.
  - destruct (decide (w ∈ l)); auto.
Qed.
Print Assumptions C48_liquid_staking_origins.
