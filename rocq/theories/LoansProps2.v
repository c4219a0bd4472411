(** * LoansProps2: property theorems C157-C162 (lending: availability and rewards). *)
From Verif Require Import Base MapSum Ledger AmmModel AmmEx AmmProofs5 LoansModel LoansSpec LoansSpec2 LoansProofs LoansProofs2 LoansProofs3 LoansProofs4 LoansProofs5
  LoansProofs7 LoansProofs12 LoansProofs13 LoansProofs14 LoansProofs15 LoansProofs16 LoansProofs17 LoansProofs18 LoansProofs19 LoansProofs20 LoansProofs21 LoansEx.

Lemma allow_all_lenient : lenient allow_all. Proof. repeat split. Qed.

(** ** C157.  A market whose vouchers are backed one to one *)
Theorem C157_frozen_forever C P s s' s'' a c :
  cfg_ok C -> loans_reachable C P s -> stuck C s a -> loans_steps C P s s' ->
  supply_of s' a = supply_of s a /\ stuck C s' a /\ (call_ok C c -> loans_exec C P s' c = Ok s'' -> ~ touches c a).
Proof.
  intros HC R F H. destruct (steps_stuck C P s s' a HC (reachable_linv C P s R) F H) as (I & Q1 & Q2). split; [auto|]. split; [auto|]. intros Hc Hx.
  exact (proj1 (exec_stuck C P s' c s'' a HC Hc I Q2 Hx)).
Qed.
Print Assumptions C157_frozen_forever.
Theorem C157_collateral_blocks_account C P s a w c s' :
  loans_reachable C P s -> locked C s a w -> loans_exec C P s c = Ok s' -> ~ relies_on_collateral s c w.
Proof. intros R. exact (exec_locked C P s c s' a w (reachable_linv C P s R)). Qed.
Print Assumptions C157_collateral_blocks_account.
(** fifty of the smallest units suffice: account 100 supplies one unit to the new market 20 (50 vouchers), sends 49 to the pallet and,
    after the price of its real collateral has halved, cannot be liquidated *)
Definition lx_trap_acts : list lact :=
  [ACall (LAddMarket Root 10 (lxM lxJ 1010)); ACall (LAddMarket Root 20 (lxM lxJ 1020)); ACall (LAddMarket Root 30 (lxM lxJ 1030));
   ACall (LActivate Root 10); ACall (LActivate Root 20); ACall (LActivate Root 30);
   APrice 10 (10 ^ 18); APrice 20 (10 ^ 18); APrice 30 (10 ^ 18);
   ACall (LMint 101 10 (1000 * U)); ACall (LMint 100 30 (100 * U)); ACall (LCollateral 100 30 true); ACall (LBorrow 100 10 (49 * U));
   ACall (LMint 100 20 1); ACall (LCollateral 100 20 true); AGive 20 100 1 49; APrice 30 (5 * 10 ^ 17); AClock 1600000006 11].
Definition lx_trap : loans := lacts_run lxC allow_all lx0 lx_trap_acts.
Lemma lx_trap_reach : loans_reachable lxC allow_all lx_trap.
Proof. apply lacts_reach; [apply lx0_reach|]. unfold lx_trap_acts. lx_ok. Qed.
Definition frozen_b (C : loans_cfg) s a : bool := (0 <? supply_of s a) && (supply_of s a <=? backing C s a).
Lemma lx_trap_frozen : frozen lxC lx_trap 20.
Proof. assert (H : frozen_b lxC lx_trap 20 = true) by (vm_compute; reflexivity). unfold frozen_b in H. unfold frozen. lia. Qed.
Lemma lx_trap_stuck : stuck lxC lx_trap 20.
Proof. split; [apply lx_trap_frozen|]. assert (H : (0 <? m_last (acc_of lx_trap 20)) && (m_last (acc_of lx_trap 20) <? ln_time lx_trap) = true) by (vm_compute; reflexivity). lia. Qed.
Lemma lx_trap_locked : locked lxC lx_trap 20 100.
Proof.
  split; [|split; [apply lx_trap_frozen|]].
  - assert (H : someb (ln_mkts lx_trap !! 20) (fun mk => bool_decide (mk_state mk = Active)) = true) by (vm_compute; reflexivity).
    destruct (ln_mkts lx_trap !! 20) as [mk|]; [|discriminate H]. exists mk. split; [reflexivity|]. apply bool_decide_eq_true in H. exact H.
  - assert (H : someb (ln_deps lx_trap !! (20, 100)) (fun d => d_col d && (0 <? d_v d)) = true) by (vm_compute; reflexivity).
    destruct (ln_deps lx_trap !! (20, 100)) as [d|]; [|discriminate H]. exists d. cbn in H. apply andb_prop in H as [H1 H2]. split; [reflexivity|]. split; [exact H1|lia].
Qed.
Theorem C157_refuted : exists C P s a w,
  cfg_ok C /\ loans_reachable C P s /\ threshold_worth C s w + 10 * U < borrow_worth s w /\ supply_of s a = 50 /\ backing C s a = 50 /\
  (forall liq la amt ca s', loans_exec C P s (LLiquidate liq w la amt ca) <> Ok s') /\
  (forall s' c s'', loans_steps C P s s' -> call_ok C c -> loans_exec C P s' c = Ok s'' -> ~ touches c a).
Proof.
  exists lxC, allow_all, lx_trap, 20, 100. split; [exact lxC_ok|]. split; [apply lx_trap_reach|]. split; [apply Z.ltb_lt; vm_compute; reflexivity|].
  split; [vm_compute; reflexivity|]. split; [vm_compute; reflexivity|]. split.
  - intros liq la amt ca s' H. apply (C157_collateral_blocks_account _ _ _ _ _ _ _ lx_trap_reach lx_trap_locked H). reflexivity.
  - intros s' c s'' H Hc Hx. apply (C157_frozen_forever _ _ _ _ s'' 20 c lxC_ok lx_trap_reach lx_trap_stuck H); auto.
Qed.
Print Assumptions C157_refuted.

(** ** C158 *)
Theorem C158_repay_partial C P s a w mk :
  cfg_ok C -> loans_reachable C P s -> lenient P -> ln_mkts s !! a = Some mk -> mk_state mk = Active -> usable_model (mk_model mk) -> headroom C s a ->
  exists s1, accrue C s a = Ok s1 /\
    (debt_now s1 a w <= U128MAX -> rewards_fit s1 a w ->
     (forall amt, 0 <= amt <= debt_now s1 a w -> amt <= bal (ln_led s) a w -> exists s', loans_exec C P s (LRepay w a amt) = Ok s') /\
     (0 < ln_time s -> debt_now s1 a w <= bal (ln_led s) a w -> exists s', loans_exec C P s (LRepayAll w a) = Ok s')).
Proof.
  intros HC R LP Hm HA HU HH. destruct (accrue_prog C P s a mk HC R Hm HU HH) as [s1 E]. exists s1. split; [exact E|]. intros HD HF.
  pose proof (reachable_linv C P s R) as Hi. pose proof (reachable_rinv C P s HC R) as RR. split.
  - intros amt Ha Hb. exact (repay_prog C P s s1 w a amt mk Hi RR Hm HA LP E Ha HD Hb HF).
  - intros Ht Hb. exact (repay_all_prog C P s s1 w a mk Hi RR Ht Hm HA LP E HD Hb HF).
Qed.
Print Assumptions C158_repay_partial.
Definition headroom_b (C : loans_cfg) s a : bool :=
  let dt := interest_time s a in
  (bal (ln_led s) a (ln_acct C) + borrows_of s a + 2 * borrows_of s a * dt <=? U128MAX) && (index_of s a + 2 * index_of s a * dt <=? U128MAX) &&
  ((supply_of s a =? 0) || (backing C s a + 2 * borrows_of s a * dt / 31536000 <? supply_of s a)).
Lemma headroom_ok C s a : headroom_b C s a = true -> headroom C s a.
Proof. unfold headroom_b, headroom. cbn zeta. intros H. apply andb_prop in H as [H H3]. apply andb_prop in H as [H1 H2]. split; [lia|]. split; [lia|]. apply orb_prop in H3 as [H3|H3]; [left|right]; lia. Qed.
Definition rewards_fit_b s a w : bool := (supply_index_now s a <=? U128MAX) && (borrow_index_now s a <=? U128MAX) && (claimable_in s a w <=? U128MAX).
Example C158_example :
  headroom lxC lx_year 10 /\ someb (ln_mkts lx_year !! 10) (fun mk => bool_decide (mk_state mk = Active)) = true /\
  okb (accrue lxC lx_year 10) (fun s1 => (debt_now s1 10 101 =? 424 * U) && rewards_fit_b s1 10 101) = true /\
  okb (loans_exec lxC allow_all lx_year (LRepay 101 10 (424 * U))) (fun s' => debt_now s' 10 101 =? 0) = true.
Proof. split; [apply headroom_ok; vm_compute; reflexivity|]. vm_compute. auto. Qed.

(** a market with ten units supplied and five borrowed: whoever sends 490 units to the pallet makes the debt unpayable for ever, although the
    debtor holds the tokens and the market stays active *)
Definition lx_unpay_acts : list lact :=
  [ACall (LAddMarket Root 20 (lxM lxJ 1020)); ACall (LAddMarket Root 30 (lxM lxJ 1030)); ACall (LActivate Root 20); ACall (LActivate Root 30);
   APrice 10 (10 ^ 18); APrice 20 (10 ^ 18); APrice 30 (10 ^ 18); ACall (LMint 101 20 10); ACall (LMint 100 30 (100 * U)); ACall (LCollateral 100 30 true); ACall (LBorrow 100 20 5);
   AGive 20 100 1 490; AClock 1600000006 11].
Definition lx_unpay : loans := lacts_run lxC allow_all lx0 lx_unpay_acts.
Lemma lx_unpay_reach : loans_reachable lxC allow_all lx_unpay.
Proof. apply lacts_reach; [apply lx0_reach|]. unfold lx_unpay_acts. lx_ok. Qed.
Definition stuck_b (C : loans_cfg) (s : loans) (a : asset) : bool := frozen_b C s a && (0 <? m_last (acc_of s a)) && (m_last (acc_of s a) <? ln_time s).
Lemma stuck_b_ok C s a : stuck_b C s a = true -> stuck C s a.
Proof. unfold stuck_b, frozen_b, stuck, frozen. lia. Qed.
Lemma lx_unpay_stuck : stuck lxC lx_unpay 20.
Proof. apply stuck_b_ok. vm_compute. reflexivity. Qed.
Lemma stuck_unpayable C P s a w : cfg_ok C -> loans_reachable C P s -> stuck C s a -> w <> ln_acct C ->
  (forall s' amt s'', loans_steps C P s s' -> 0 <= amt <= U128MAX -> loans_exec C P s' (LRepay w a amt) <> Ok s'') /\
  (forall s' s'', loans_steps C P s s' -> loans_exec C P s' (LRepayAll w a) <> Ok s'').
Proof.
  intros HC R HS Nw. split.
  - intros s' amt s'' Hs Ha Hx. refine (proj2 (proj2 (C157_frozen_forever C P s s' s'' a (LRepay w a amt) HC R HS Hs)) _ Hx _); [split; [exact Ha|exact Nw]|right; reflexivity].
  - intros s' s'' Hs Hx. refine (proj2 (proj2 (C157_frozen_forever C P s s' s'' a (LRepayAll w a) HC R HS Hs)) _ Hx _); [exact Nw|right; reflexivity].
Qed.
Theorem C158_refuted : exists C P s a w mk,
  cfg_ok C /\ loans_reachable C P s /\ lenient P /\ ln_mkts s !! a = Some mk /\ mk_state mk = Active /\
  debt_now s a w = 5 /\ 5 <= bal (ln_led s) a w /\
  (forall s' amt s'', loans_steps C P s s' -> 0 <= amt <= U128MAX -> loans_exec C P s' (LRepay w a amt) <> Ok s'') /\
  (forall s' s'', loans_steps C P s s' -> loans_exec C P s' (LRepayAll w a) <> Ok s'').
Proof.
  assert (H : someb (ln_mkts lx_unpay !! 20) (fun mk => bool_decide (mk_state mk = Active)) = true) by (vm_compute; reflexivity).
  apply someb_spec in H as (mk & Hm & HA). apply bool_decide_eq_true in HA.
  exists lxC, allow_all, lx_unpay, 20, 100, mk. split; [exact lxC_ok|]. split; [apply lx_unpay_reach|]. split; [apply allow_all_lenient|]. split; [exact Hm|]. split; [exact HA|].
  split; [vm_compute; reflexivity|]. split; [apply Z.leb_le; vm_compute; reflexivity|].
  apply (stuck_unpayable lxC allow_all lx_unpay 20 100 lxC_ok lx_unpay_reach lx_unpay_stuck). discriminate.
Qed.
Print Assumptions C158_refuted.

(** ** C159 *)
Theorem C159_withdraw_partial C P s s1 a w mk v amt (all : bool) :
  cfg_ok C -> loans_reachable C P s -> lenient P -> ln_mkts s !! a = Some mk -> mk_state mk = Active -> accrue C s a = Ok s1 ->
  is_collateral s a w = false -> debt_now s1 a w <= U128MAX -> rewards_fit s1 a w -> earnings_fit s1 a w (rate_of C s1 a) ->
  0 < supply_of s1 a -> backing C s1 a < supply_of s1 a -> bal (ln_led s) a (ln_acct C) + borrows_of s1 a <= U128MAX ->
  v = (if all then vouchers s a w else amt * 10 ^ 18 / rate_of C s1 a) -> v <= vouchers s a w ->
  v * rate_of C s1 a / 10 ^ 18 + reserves_of s1 a <= bal (ln_led s) a (ln_acct C) ->
  0 < amt -> exists s', loans_exec C P s (if all then LRedeemAll w a else LRedeem w a amt) = Ok s'.
Proof.
  intros HC R LP Hm HA E Hc HD HF HE HS HB HM Hv Hvv Hcash Ha. rewrite <- FDIV_val in Hv, Hcash.
  destruct (redeem_prog C P s s1 w a mk (fun z => z) v all amt HC R Hm HA LP E Hc HD HF HE HS HB HM ltac:(lia) Hv Hvv Hcash) as (s' & x & H).
  exists s'. destruct all; cbn [loans_exec]; unfold fst_res.
  - rewrite H. reflexivity.
  - unfold redeem. replace (amt =? 0) with false by lia. cbn [negb ensure rbind]. rewrite H. reflexivity.
Qed.
Print Assumptions C159_withdraw_partial.
Definition earnings_fit_b s a w r : bool :=
  let e := earn_of s a w in (0 <=? e_rate e) && (0 <=? e_total e) && (e_total e <=? U128MAX) && (e_total e + (r - e_rate e) * vouchers s a w / 10 ^ 18 <=? U128MAX).
Example C159_example :
  is_collateral lx2 10 100 = false /\
  okb (accrue lxC lx2 10) (fun s1 => (debt_now s1 10 100 =? 0) && rewards_fit_b s1 10 100 && earnings_fit_b s1 10 100 (rate_of lxC s1 10) &&
    (0 <? supply_of s1 10) && (backing lxC s1 10 <? supply_of s1 10) &&
    (100 * U * 10 ^ 18 / rate_of lxC s1 10 <=? vouchers lx2 10 100) && (100 * U * 10 ^ 18 / rate_of lxC s1 10 * rate_of lxC s1 10 / 10 ^ 18 + reserves_of s1 10 <=? bal (ln_led lx2) 10 1)) = true /\
  okb (loans_exec lxC allow_all lx2 (LRedeem 100 10 (100 * U))) (fun _ => true) = true.
Proof. vm_compute. auto. Qed.
(** a market that is active but has no price: nobody can borrow, withdraw collateral or disable it, whether or not they use that market *)
Theorem C159_missing_price_blocks_everyone C P s c s' b mk w :
  loans_reachable C P s -> ln_mkts s !! b = Some mk -> mk_state mk = Active -> ln_price s !! b = None ->
  loans_exec C P s c = Ok s' -> relies_on_collateral s c w -> exists liq la amt ca, c = LLiquidate liq w la amt ca.
Proof. intros R. exact (exec_unpriced C P s c s' b mk w (reachable_linv C P s R)). Qed.
Print Assumptions C159_missing_price_blocks_everyone.
Definition lx_noprice_acts : list lact := [ACall (LAddMarket Root 40 (lxM lxJ 1040)); ACall (LActivate Root 40)].
Definition lx_noprice : loans := lacts_run lxC allow_all lx1 lx_noprice_acts.
Lemma lx_noprice_reach : loans_reachable lxC allow_all lx_noprice.
Proof. apply lacts_reach; [apply lx1_reach|]. unfold lx_noprice_acts. lx_ok. Qed.
Theorem C159_refuted : exists C P s w a,
  cfg_ok C /\ loans_reachable C P s /\ borrow_worth s w = 0 /\ 0 < vouchers s a w /\ is_collateral s a w = true /\
  rate_of C s a * vouchers s a w / 10 ^ 18 + reserves_of s a <= bal (ln_led s) a (ln_acct C) /\ price_of s a = 2 * 10 ^ 18 /\
  forall amt s', loans_exec C P s (LRedeem w a amt) <> Ok s' /\ loans_exec C P s (LRedeemAll w a) <> Ok s' /\ loans_exec C P s (LCollateral w a false) <> Ok s'.
Proof.
  exists lxC, allow_all, lx_noprice, 101, 20. split; [exact lxC_ok|]. split; [apply lx_noprice_reach|]. split; [vm_compute; reflexivity|].
  split; [apply Z.ltb_lt; vm_compute; reflexivity|]. split; [vm_compute; reflexivity|]. split; [apply Z.leb_le; vm_compute; reflexivity|]. split; [vm_compute; reflexivity|].
  assert (H : someb (ln_mkts lx_noprice !! 40) (fun mk => bool_decide (mk_state mk = Active)) = true) by (vm_compute; reflexivity).
  destruct (ln_mkts lx_noprice !! 40) as [mk|] eqn:Hm; [|discriminate H]. apply bool_decide_eq_true in H.
  assert (Hp : ln_price lx_noprice !! 40 = None) by (vm_compute; reflexivity). assert (Hc : is_collateral lx_noprice 20 101 = true) by (vm_compute; reflexivity).
  intros amt s'. repeat split; intros Hx; destruct (C159_missing_price_blocks_everyone _ _ _ _ _ 40 mk 101 lx_noprice_reach Hm H Hp Hx) as (? & ? & ? & ? & Hk); try discriminate Hk; split; auto.
Qed.
Print Assumptions C159_refuted.

(** ** C160 *)
Theorem C160_claim_exact C P s w s' :
  cfg_ok C -> loans_reachable C P s -> loans_exec C P s (LClaim w) = Ok s' ->
  moved (ln_led s) (ln_led s') (rew_asset C) (rew_acct C) w (claimable s w) /\ claimable s' w = 0 /\ (forall x, x <> w -> claimable s' x = claimable s x).
Proof.
  intros HC R H. destruct (claim_exact C P s w s' (reachable_linv C P s R) (reachable_rinv C P s HC R) H) as (Q1 & Q2 & Q3). split; [|auto]. destruct (decide _) as [E|E].
  - rewrite E, Q1. intros c x. unfold at_. do 2 case_bool_decide; lia.
  - eapply transfer_moved; eauto.
Qed.
Print Assumptions C160_claim_exact.
Theorem C160_claim_for_market_exact C P s w a s' mk :
  cfg_ok C -> loans_reachable C P s -> ln_mkts s !! a = Some mk -> loans_exec C P s (LClaimFor w a) = Ok s' ->
  moved (ln_led s) (ln_led s') (rew_asset C) (rew_acct C) w (claimable_in s a w) /\ claimable_in s' a w = 0 /\
  (forall b, b <> a -> earned_in s' b w = earned_in s b w) /\ (forall x, x <> w -> claimable s' x = claimable s x).
Proof.
  intros HC R Hm H. destruct (claim_for_exact C P s w a s' mk (reachable_linv C P s R) (reachable_rinv C P s HC R) Hm H) as (Q1 & Q2 & Q3). split; [|auto]. destruct (decide _) as [E|E].
  - rewrite E, Q1. intros c x. unfold at_. do 2 case_bool_decide; lia.
  - eapply transfer_moved; eauto.
Qed.
Print Assumptions C160_claim_for_market_exact.
Theorem C160_claim_goes_through C P s w :
  cfg_ok C -> loans_reachable C P s -> lenient P ->
  (forall a mk, ln_mkts s !! a = Some mk -> debt_now s a w <= U128MAX /\ supply_index_now s a <= U128MAX /\ borrow_index_now s a <= U128MAX) ->
  claimable s w <= U128MAX -> claimable s w <= bal (ln_led s) (rew_asset C) (rew_acct C) -> exists s', loans_exec C P s (LClaim w) = Ok s'.
Proof. intros HC R. exact (claim_prog C P s w (reachable_linv C P s R) (reachable_rinv C P s HC R)). Qed.
Print Assumptions C160_claim_goes_through.
Definition lx_rew0 : loans := lacts_run lxC allow_all lx1 [AClock 1600000100 1010].
Example C160_example : claimable lx_rew0 101 = 10 ^ 12 /\ claimable_in lx_rew0 20 101 = 10 ^ 12 /\ claimable_in lx_rew0 10 101 = 0 /\
  okb (loans_exec lxC allow_all lx_rew0 (LClaim 101)) (fun s' => (bal (ln_led s') 900 101 =? 10 ^ 12) && (claimable s' 101 =? 0)) = true /\
  forallb (fun am => (debt_now lx_rew0 am.1 101 <=? U128MAX) && (supply_index_now lx_rew0 am.1 <=? U128MAX) && (borrow_index_now lx_rew0 am.1 <=? U128MAX)) (map_to_list (ln_mkts lx_rew0)) = true.
Proof. vm_compute. auto. Qed.

(** ** C161 *)
Theorem C161_supplier_rewards_partial C P s0 e p s :
  cfg_ok C -> loans_genesis s0 -> reward_history C P (supplier_rewards_only C) s0 e p s -> p + credited s <= e.
Proof. exact (rewards_within_emission C P s0 e p s). Qed.
Print Assumptions C161_supplier_rewards_partial.
(** concrete histories with their emission and payments *)
Definition hact_run (C : loans_cfg) (P : policy) (q : Z * Z * loans) (x : lact) : Z * Z * loans :=
  let '(e, p, s) := q in
  match x with
  | ACall c => match loans_exec C P s c with Ok s' => (e, p + paid_by C c s s', s') | _ => q end
  | AClock t b => if (ln_time s <=? t) && (t <=? U64MAX) && (ln_block s <=? b) && (b <=? U32MAX) then (e + emission s (b - ln_block s), p, st_clock s t b) else q
  | APrice a x => if z_bounds_b x then (e, p, st_price s (<[a := x]> (ln_price s))) else q
  | AGive a src dst amt => q
  end.
Definition hacts_run C P q l := fold_left (hact_run C P) l q.
Definition hact_ok (C : loans_cfg) (Q : loans_call -> Prop) (x : lact) : Prop := match x with ACall c => call_ok C c /\ Q c | _ => True end.
Definition prices_ok (s : loans) : Prop := forall a y, ln_price s !! a = Some y -> is_u128 y.
Lemma history_reach C P Q s0 e p s : loans_genesis s0 -> reward_history C P Q s0 e p s -> loans_reachable C P s.
Proof.
  intros G H. induction H as [s|s0 e p s c s' H IH Hc HQ HX|s0 e p s L H IH HL Hb|s0 e p s x H IH Hx|s0 e p s t b H IH Ht Hb]; [exists s; split; [auto|constructor]|..]; (eapply reach_step; [apply IH; auto|]).
  - apply (step_call C P s c s'); auto.
  - apply step_tokens; auto.
  - apply step_oracle; auto.
  - apply step_clock; auto.
Qed.
Lemma hact_hist C P Q s0 q x : loans_genesis s0 -> reward_history C P Q s0 q.1.1 q.1.2 q.2 -> hact_ok C Q x ->
  let q' := hact_run C P q x in reward_history C P Q s0 q'.1.1 q'.1.2 q'.2.
Proof.
  destruct q as [[e p] s]. cbn [fst snd]. intros G H Hx. pose proof (reachable_linv C P s (history_reach _ _ _ _ _ _ _ G H)) as [Hi _].
  destruct x as [c|t b|a y|a src dst amt]; cbn [hact_run hact_ok] in *; cbn zeta.
  - destruct (loans_exec C P s c) as [s'| |] eqn:E; cbn [fst snd]; auto. destruct Hx. apply rh_call; auto.
  - destruct (_ && _) eqn:E; cbn [fst snd]; auto. apply rh_clock; auto; lia.
  - destruct (z_bounds_b y) eqn:E; cbn [fst snd]; auto. apply rh_oracle; auto. intros b z Hz.
    destruct (Z.eq_dec b a) as [->|Ne]; [rewrite lookup_insert in Hz; injection Hz as <-; apply andb_prop in E; unfold is_u128; lia|].
    rewrite lookup_insert_ne in Hz by auto. exact (LoansProofs3.li_price s Hi b z Hz).
  - auto.
Qed.
Lemma hacts_hist C P Q s0 l q : loans_genesis s0 -> reward_history C P Q s0 q.1.1 q.1.2 q.2 -> Forall (hact_ok C Q) l ->
  let q' := hacts_run C P q l in reward_history C P Q s0 q'.1.1 q'.1.2 q'.2.
Proof.
  unfold hacts_run. revert q. induction l as [|x l IH]; cbn [fold_left]; intros q G H Hl; auto. inversion Hl; subst. apply IH; auto. apply hact_hist; auto.
Qed.
Lemma lx0_genesis : loans_genesis lx0.
Proof.
  unfold lx0, loans_genesis, loans_start; cbn [ln_mkts ln_under ln_acc ln_rew ln_deps ln_debts ln_earn ln_six ln_bix ln_racc ln_free ln_led ln_price ln_time ln_block].
  do 11 (split; [reflexivity|]). split; [apply mk_ledger_wf|]. split; [intros a x Hx; rewrite lookup_empty in Hx; discriminate|]. split; split; apply Z.leb_le; vm_compute; reflexivity.
Qed.
Ltac hx_ok := repeat (apply Forall_cons_2; [cbn [hact_ok]; first [exact I | split; [cbn [call_ok]; lx_conj|cbn; first [exact I|left; reflexivity|right; reflexivity|discriminate|lia]]]|]); apply Forall_nil_2.
Definition lx_hist_acts : list lact :=
  [ACall (LAddMarket Root 10 (lxM lxJ 1010)); ACall (LActivate Root 10); APrice 10 (10 ^ 18); ACall (LAddReward 102 (10 ^ 15));
   ACall (LMint 100 10 (1000 * U)); ACall (LSpeed Root 10 (Some (10 ^ 9)) None); AClock 1600000100 510; ACall (LMint 101 10 (3000 * U)); AClock 1600000200 1010;
   ACall (LClaim 100); ACall (LRedeem 101 10 (1000 * U))].
Definition lx_hist := hacts_run lxC allow_all (0, 0, lx0) lx_hist_acts.
(** emitted 10^12 in 1000 blocks; account 100 has claimed 5/8 of it, the rest is credited to account 101 *)
Example C161_example :
  reward_history lxC allow_all (supplier_rewards_only lxC) lx0 lx_hist.1.1 lx_hist.1.2 lx_hist.2 /\
  lx_hist.1.1 = 10 ^ 12 /\ lx_hist.1.2 = 625000000000 /\ credited lx_hist.2 = 375000000000.
Proof.
  split; [|vm_compute; auto]. apply (hacts_hist lxC allow_all (supplier_rewards_only lxC) lx0 lx_hist_acts (0, 0, lx0) lx0_genesis (rh_start _ _ _ _)). unfold lx_hist_acts. hx_ok.
Qed.
(** borrowers: a loan too small to bear interest keeps its amount while the index of the market grows *)
Definition lx_over_acts : list lact :=
  [ACall (LAddMarket Root 10 (lxM lxJ 1010)); ACall (LAddMarket Root 20 (lxM lxJ 1020)); ACall (LActivate Root 10); ACall (LActivate Root 20);
   APrice 10 (10 ^ 18); APrice 20 (10 ^ 18); ACall (LAddReward 102 (10 ^ 15));
   ACall (LMint 100 10 1000); ACall (LMint 101 20 (500 * U)); ACall (LCollateral 101 20 true); ACall (LBorrow 101 10 10);
   AClock (1600000000 + 3153600000) 11; ACall (LGetBorrow 101 10); ACall (LSpeed Root 10 None (Some (10 ^ 9))); AClock (1600000000 + 3153600001) 1011;
   ACall (LClaim 101)].
Definition lx_over := hacts_run lxC allow_all (0, 0, lx0) lx_over_acts.
Theorem C161_refuted : exists C P s0 e p s,
  cfg_ok C /\ loans_genesis s0 /\ reward_history C P (no_voucher_transfers C) s0 e p s /\ e = 10 ^ 12 /\ p = 3 * 10 ^ 12 - 1.
Proof.
  exists lxC, allow_all, lx0, lx_over.1.1, lx_over.1.2, lx_over.2. split; [apply lxC_ok|]. split; [apply lx0_genesis|]. split.
  - apply (hacts_hist lxC allow_all (no_voucher_transfers lxC) lx0 lx_over_acts (0, 0, lx0) lx0_genesis (rh_start _ _ _ _)). unfold lx_over_acts. hx_ok.
  - vm_compute. auto.
Qed.
Print Assumptions C161_refuted.

(** ** C162 *)
Theorem C162_others_keep_rewards_partial C P s c s' w :
  cfg_ok C -> loans_reachable C P s -> no_borrow_rewards s -> call_ok C c -> supplier_rewards_only C c -> claimer c = None ->
  loans_exec C P s c = Ok s' -> claimable s' w = claimable s w.
Proof.
  intros HC R N Hc HQ Hcl H. apply (exec_keep C P s c s' w HC Hc (reachable_linv C P s R) (reachable_rinv C P s HC R) (reachable_inm C P s HC R) N HQ Hcl H).
Qed.
Print Assumptions C162_others_keep_rewards_partial.
Theorem C162_time_keeps_rewards_partial C P s t b w :
  cfg_ok C -> loans_reachable C P s -> no_borrow_rewards s -> ln_block s <= b -> claimable s w <= claimable (st_clock s t b) w.
Proof. intros HC R N Hb. exact (clock_keep s t b w (reachable_linv C P s R) (reachable_rinv C P s HC R) Hb N). Qed.
Print Assumptions C162_time_keeps_rewards_partial.
(** the history of the example of C161, before the claim: another account redeems, supplies or changes the speed *)
Definition lx_keep := (hacts_run lxC allow_all (0, 0, lx0) (take 9 lx_hist_acts)).2.
Lemma lx_keep_hist : exists e p, reward_history lxC allow_all (supplier_rewards_only lxC) lx0 e p lx_keep.
Proof.
  eexists _, _. apply (hacts_hist lxC allow_all (supplier_rewards_only lxC) lx0 (take 9 lx_hist_acts) (0, 0, lx0) lx0_genesis (rh_start _ _ _ _)).
  unfold lx_hist_acts. cbn [take]. hx_ok.
Qed.
Example C162_example : loans_reachable lxC allow_all lx_keep /\ no_borrow_rewards lx_keep /\ claimable lx_keep 100 = 625000000000 /\
  okb (loans_exec lxC allow_all lx_keep (LRedeem 101 10 (1000 * U))) (fun s' => claimable s' 100 =? 625000000000) = true /\
  okb (loans_exec lxC allow_all lx_keep (LSpeed Root 10 (Some 0) None)) (fun s' => claimable s' 100 =? 625000000000) = true.
Proof.
  destruct lx_keep_hist as (e & p & H). split; [exact (history_reach _ _ _ _ _ _ _ lx0_genesis H)|]. split; [|vm_compute; auto].
  apply (history_phi lxC allow_all lx0 e p lx_keep lxC_ok lx0_genesis H).
Qed.
(** a borrower earns rewards on a loan of 400 for 1000 blocks; a liquidation of a quarter of the loan takes a quarter of them away *)
Definition lx_cut_acts : list lact :=
  [ACall (LSpeed Root 10 None (Some (10 ^ 9))); ACall (LSpeed Root 20 (Some 0) (Some 0)); ACall (LBorrow 101 10 (400 * U)); AClock 1600000001 1010; APrice 20 (10 ^ 18)].
Definition lx_cut : loans := lacts_run lxC allow_all lx1 lx_cut_acts.
Lemma lx_cut_reach : loans_reachable lxC allow_all lx_cut.
Proof. apply lacts_reach; [apply lx1_reach|]. unfold lx_cut_acts. lx_ok. Qed.
Theorem C162_refuted : exists C P s liq w la amt ca s',
  cfg_ok C /\ loans_reachable C P s /\ liq <> w /\ loans_exec C P s (LLiquidate liq w la amt ca) = Ok s' /\
  claimable s w = 10 ^ 12 /\ claimable s' w < 751 * 10 ^ 9.
Proof.
  assert (H : okb (loans_exec lxC allow_all lx_cut (LLiquidate 100 101 10 (100 * U) 20)) (fun s' => claimable s' 101 <? 751 * 10 ^ 9) = true) by (vm_compute; reflexivity).
  destruct (loans_exec lxC allow_all lx_cut (LLiquidate 100 101 10 (100 * U) 20)) as [s'| |] eqn:E; [|discriminate H|discriminate H].
  exists lxC, allow_all, lx_cut, 100, 101, 10, (100 * U), 20, s'. split; [apply lxC_ok|]. split; [apply lx_cut_reach|]. split; [discriminate|]. split; [exact E|].
  split; [vm_compute; reflexivity|]. apply Z.ltb_lt. exact H.
Qed.
Print Assumptions C162_refuted.
