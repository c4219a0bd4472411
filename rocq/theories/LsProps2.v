(** * LsProps2: property theorems C52-C63 (liquid staking: staking, unstaking, backing, responses, liveness). *)
From Verif Require Import Base MapSum Ledger AmmModel AmmEx LoansModel LoansSpec LoansProofs3 LoansProofs4 LoansProofs5 LoansEx
  LsModel LsSpec LsProofs LsDist LsProofs2 LsProofs3 LsProofs4 LsProofs5 LsProofs6 LsProofs7 LsProofs8 LsProofs9 LsProofs10 LsEx.

Notation any := any_call.
Notation sxe := (ls_exec (sxC MaxMin) sxE).
Notation hx l := (sxrun MaxMin l).

Lemma total_bonded_eq s : leds_ok s -> total_bonded s = Z.min U128MAX (msum (fun _ l => sl_total l) (ls_leds s)).
Proof.
  intros H. unfold total_bonded. rewrite (fold_sat sl_total); [|intros x Hx; apply (led_values_ok s x H) in Hx as (K1 & K2 & _ & K4); pose proof (chunk_sum_nonneg _ K4); lia|pose proof U128MAX_pos; lia].
  rewrite msum_led_values. reflexivity.
Qed.
Lemma cap_bound s n net : leds_ok s -> 0 <= net -> saturating_add (total_bonded s) net <= sat128 n ->
  Z.min U128MAX (msum (fun _ l => sl_total l) (ls_leds s) + net) <= Z.max 0 n.
Proof.
  intros H. rewrite (total_bonded_eq s H). unfold saturating_add, sat128. generalize (msum (fun _ l => sl_total l) (ls_leds s)) as t, U128MAX. clear. intros. lia.
Qed.

(** ** C52.  stake: of [amt], the XCM fee goes to the fee account, the rest to the pallet; the reserve share is set aside, the
    remainder enters the matching pool and buys liquid tokens at the stored rate, rounded down. *)
Theorem C52_stake C E s who amt s' :
  ls_cfg_ok C -> relay_ok E -> ls_reachable C E any s -> ls_user C who -> is_u128 amt -> ls_exec C E s (KStake who amt) = Ok s' ->
  let fee := lc_fees C in let reserve := ls_rf s * amt / 10 ^ 6 in let net := amt - fee - reserve in
  let got := (10 ^ 36 / ls_rate s) * net / 10 ^ 18 in
  lc_min_stake C <= amt /\ 0 <= reserve /\ 0 <= net /\ 0 <= got /\ ls_rate s * got <= net * 10 ^ 18 /\
  (forall a w, bal (ls_led s') a w = bal (ls_led s) a w - at_ (lc_stk C) who a w (amt - fee) + at_ (lc_stk C) (lc_acct C) a w (amt - fee)
     - at_ (lc_relay C) who a w fee + at_ (lc_relay C) (lc_xcm C) a w fee + at_ (lc_liq C) who a w got) /\
  iss (ls_led s') (lc_liq C) = iss (ls_led s) (lc_liq C) + got /\
  pool_stake s' = pool_stake s + net /\ locked_stake s' = locked_stake s /\ pool_unstake s' = pool_unstake s /\
  ls_res s' = ls_res s + reserve /\ ls_leds s' = ls_leds s /\ ls_unl s' = ls_unl s /\ ls_rate s' = ls_rate s /\
  (** the market cap is respected by what has been bonded already plus this amount *)
  Z.min U128MAX (msum (fun _ l => sl_total l) (ls_leds s) + net) <= Z.max 0 (ls_cap s * Z.of_nat (length (lc_idx C))).
Proof.
  intros HC HE R [U1 U2] Ha H. pose proof (reachable_lsi C E any s HC HE R) as I. cbn [ls_exec] in H. cbv zeta.
  destruct HC as (C1 & C2 & C3 & C4 & C5 & C6 & C7 & C8 & C9 & C10 & C11 & C12 & _).
  apply stake_full in H; [|apply I|apply I|apply Ha|apply C12]. destruct H as (v & L & H). cbv zeta in H.
  destruct H as (H1 & H2 & H3 & H4 & H5 & H6 & H7 & H8 & H9 & H10 & B & J & W & ->).
  change (10 ^ 6) with PMILL. assert (E36 : 10 ^ 36 = FDIV * FDIV) by (vm_compute; reflexivity). rewrite E36. clear E36. change (10 ^ 18) with FDIV. rewrite <- H5.
  split; [exact H1|]. split; [exact H3|]. split; [exact H2|]. split; [apply H6|]. split; [exact H7|]. split; [exact B|].
  split; [change (iss L (lc_liq C) = iss (ls_led s) (lc_liq C) + v); rewrite J, bool_decide_true by reflexivity; reflexivity|].
  do 7 (split; [reflexivity|]). exact (cap_bound s _ _ (i_leds _ _ I) H2 H8).
Qed.
Print Assumptions C52_stake.
Example C52_example :
  okb (sxe (hx hx1) (KStake 102 20000)) (fun s' => (bal (ls_led s') 51 102 =? 19898) && (ls_res s' =? ls_res (hx hx1) + 100) && (pool_stake s' =? 19898)) = true /\
  sxe (hx hx1) (KStake 102 1) = Err "StakeTooSmall".
Proof. vm_compute. auto. Qed.

(** ** C53.  unstake through the relay chain or through lending: exactly [amt] liquid tokens leave the caller, the reserve share
    goes to the pallet, the rest is burnt, and its value at the stored rate is owed (queued) and entered in the matching pool. *)
Theorem C53_unstake C E s who amt s' :
  ls_cfg_ok C -> relay_ok E -> ls_reachable C E any s -> ls_user C who -> is_u128 amt -> ls_exec C E s (KUnstake who amt RelayChain) = Ok s' ->
  let reserve := ls_urf s * amt / 10 ^ 6 in let owed := ls_rate s * (amt - reserve) / 10 ^ 18 in
  lc_min_unstake C <= amt /\ (0 < amt -> amt <= bal (ls_led s) (lc_liq C) who) /\ 0 <= reserve <= amt /\
  (forall a w, bal (ls_led s') a w = bal (ls_led s) a w - at_ (lc_liq C) who a w amt + at_ (lc_liq C) (lc_acct C) a w reserve) /\
  iss (ls_led s') (lc_liq C) = iss (ls_led s) (lc_liq C) - (amt - reserve) /\
  pool_unstake s' = pool_unstake s + owed /\ pool_stake s' = pool_stake s /\ locked_unstake s' = locked_unstake s /\ ls_ures s' = ls_ures s + reserve /\
  ls_res s' = ls_res s /\ ls_rate s' = ls_rate s /\ (forall w, w <> who -> queue_of s' w = queue_of s w).
Proof.
  intros HC HE R U Ha H. pose proof (reachable_lsi C E any s HC HE R) as I. cbn [ls_exec] in H. cbv zeta. change (10 ^ 6) with PMILL. change (10 ^ 18) with FDIV.
  apply unstake_full in H; [|discriminate|apply I|exact Ha]. unfold unstake_eff in H. cbv zeta in H.
  destruct H as (H1 & H2 & H3 & H4 & H5 & H6 & H7 & H8 & H9 & L & s4 & B & J & W & -> & s5 & [= <-] & ->).
  split; [exact H1|]. split; [exact H9|]. split; [lia|]. split; [exact B|].
  split; [change (iss L (lc_liq C) = iss (ls_led s) (lc_liq C) - (amt - ls_urf s * amt / PMILL)); rewrite J, bool_decide_true by reflexivity; reflexivity|].
  do 6 (split; [reflexivity|]). intros w Hw. unfold queue_of. cbn [ls_unl st_ls_pool st_ls_ln st_ls_unl]. rewrite lookup_insert_ne by congruence. reflexivity.
Qed.
Print Assumptions C53_unstake.
(** instantly: the caller at once gets the value minus the instant-unstake fee, borrowed by the pallet from the lending market
    against freshly minted collateral tokens; the value itself is queued for the lending pallet *)
Theorem C53_unstake_instant C E s who amt s' :
  ls_cfg_ok C -> relay_ok E -> ls_reachable C E any s -> ls_user C who -> is_u128 amt -> ls_exec C E s (KUnstake who amt Loans) = Ok s' ->
  let reserve := ls_urf s * amt / 10 ^ 6 in let owed := ls_rate s * (amt - reserve) / 10 ^ 18 in
  let paid := owed - lc_loans_fee C * owed / 10 ^ 18 in let lender := ln_acct (lc_loans C) in
  0 <= paid /\
  bal (ls_led s') (lc_stk C) who = bal (ls_led s) (lc_stk C) who + paid /\
  bal (ls_led s') (lc_stk C) lender = bal (ls_led s) (lc_stk C) lender - paid /\
  bal (ls_led s') (lc_stk C) (lc_acct C) = bal (ls_led s) (lc_stk C) (lc_acct C) /\
  bal (ls_led s') (lc_liq C) who = bal (ls_led s) (lc_liq C) who - amt /\
  iss (ls_led s') (lc_liq C) = iss (ls_led s) (lc_liq C) - (amt - reserve) /\
  pool_unstake s' = pool_unstake s + owed /\ ls_ures s' = ls_ures s + reserve /\
  (chunk_sum (queue_of s lender) + owed <= U128MAX -> chunk_sum (queue_of s' lender) = chunk_sum (queue_of s lender) + owed) /\
  (forall w, w <> lender -> queue_of s' w = queue_of s w).
Proof.
  intros HC HE R U Ha H. pose proof (reachable_lsi C E any s HC HE R) as I. cbn [ls_exec] in H. cbv zeta. change (10 ^ 6) with PMILL. change (10 ^ 18) with FDIV.
  apply unstake_full in H; [|discriminate|apply I|exact Ha]. unfold unstake_eff in H. cbv zeta in H. set (res := ls_urf s * amt / PMILL) in *. set (x := ls_rate s * (amt - res) / FDIV) in *.
  destruct H as (H1 & H2 & H3 & H4 & H5 & H6 & H7 & H8 & H9 & L & s4 & B & J & W & E4 & s5 & H5' & ->).
  pose proof (instant_ln C E s4 who x s5 H5') as E5. apply (instant_moves C E) in H5' as (m & K1 & K2 & _ & K3 & K4); [|exact HC|exact H5].
  assert (L4 : ls_led s4 = L) by (rewrite E4; reflexivity). rewrite L4 in K3, K4.
  destruct HC as (C1 & C2 & C3 & C4 & C5 & C6 & C7 & C8 & C9 & C10 & C11 & C12 & _). destruct U as [U1 U2].
  split; [exact K1|]. change (ls_led (st_ls_pool s5 _)) with (ls_led s5). rewrite !K3, !B, K4, J. unfold at_.
  rewrite !(bool_decide_false (lc_stk C = lc_liq C /\ _)) by (intros [? _]; congruence). rewrite !(bool_decide_false (lc_stk C = lc_col C /\ _)) by (intros [? _]; congruence).
  rewrite !(bool_decide_false (lc_liq C = lc_stk C /\ _)) by (intros [? _]; congruence). rewrite !(bool_decide_false (lc_liq C = lc_col C /\ _)) by (intros [? _]; congruence).
  rewrite !(bool_decide_true (_ /\ who = who)) by auto. rewrite !(bool_decide_true (_ /\ ln_acct (lc_loans C) = ln_acct (lc_loans C))) by auto.
  rewrite !(bool_decide_false (_ /\ lc_acct C = _)) by (intros [_ ?]; congruence). rewrite !(bool_decide_false (_ /\ who = _)) by (intros [_ ?]; congruence).
  rewrite !(bool_decide_false (_ /\ ln_acct (lc_loans C) = who)) by (intros [_ ?]; congruence). rewrite bool_decide_true by reflexivity. rewrite bool_decide_false by congruence.
  do 5 (split; [lia|]). split; [reflexivity|]. split; [rewrite E5, E4; reflexivity|].
  assert (Q : forall w, queue_of (st_ls_pool s5 (mkMP (mp_s (ls_pool s)) (mkRA (pool_unstake s + x) (locked_unstake s)))) w = default [] (<[ln_acct (lc_loans C) := add_chunk (queue_of s (ln_acct (lc_loans C))) x (ls_era s + lc_bonding C + 1)]> (ls_unl s) !! w)) by (intros w; rewrite E5, E4; reflexivity).
  split.
  - intros Hle. rewrite Q, lookup_insert. cbn [default]. apply add_chunk_sum; [exact (queue_ok C s _ I)|apply H5|exact Hle].
  - intros w Hw. rewrite Q, lookup_insert_ne by congruence. reflexivity.
Qed.
Print Assumptions C53_unstake_instant.
Example C53_example :
  okb (sxe (hx hx1) (KUnstake 100 4000 RelayChain)) (fun s' => (bal (ls_led s') 51 100 =? bal (ls_led (hx hx1)) 51 100 - 4000) && (pool_unstake s' =? 3960) && (bal (ls_led s') 51 5 =? 40)) = true /\
  ls_reachable (sxC MaxMin) sxE any (hx hx9) /\
  okb (sxe (hx hx9) (KUnstake 100 4000 Loans)) (fun s' => (bal (ls_led s') 50 100 =? bal (ls_led (hx hx9)) 50 100 + 3921) && (pool_unstake s' =? 3960)) = true.
Proof. split; [vm_compute; reflexivity|]. split; [apply hx9_reach|]. vm_compute. reflexivity. Qed.
