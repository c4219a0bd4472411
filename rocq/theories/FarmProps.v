(** * FarmProps: property theorems C21-C25 and C45-C47 (liquidity mining). *)
From Verif Require Import Base MapSum Ledger AmmModel AmmEx StreamSpec StreamProofs4 FarmModel FarmSpec FarmProofs FarmProofs2 FarmProofs3.

(** ** A concrete reachable history used as witness: two pools staking asset 7 (rewards in 8 and in 7 itself) *)
Definition fxC : farm_cfg := mkFarmCfg (fun a => -1 - Z.abs a) 3 100000 100000 (fun o => match o with Root => true | _ => false end).
Definition fkA : Z * Z * Z := (7, 8, 50).
Definition fkB : Z * Z * Z := (7, 7, 0).
Definition fx_ops : list farm_op :=
  [FCreate Root 7 8 50 10; FCreate Root 7 7 0 0; FStatus Root fkA true; FStatus Root fkB true;
   FDeposit 10 fkA 1000; FDeposit 11 fkA 2000; FDeposit 10 fkB 500;
   FDispatch Root fkA 12 10000 100; FDispatch Root fkB 12 777 10;
   FBlock 30; FWithdraw 10 fkA 300; FBlock 35; FWithdraw 10 fkA 100; FBlock 41; FClaim 11 fkA; FWithdraw 10 fkB 200].
Definition fx0 : farm := farm_init (mk_ledger [(7, 10, 10^12); (7, 11, 10^12); (7, 12, 10^12); (8, 12, 10^30)]) 20.
Definition fx1 : farm := fold_left (farm_exec fxC allow_all) fx_ops fx0.
Lemma fx_user w : 0 <= w -> user_of fxC w. Proof. intros H a. cbn. lia. Qed.
Lemma fx_u128 x : z_bounds_b x = true -> 0 <= x <= U128MAX.
Proof. unfold z_bounds_b. intros H. apply andb_prop in H. lia. Qed.
Lemma mk_ledger_iss l a : iss (mk_ledger l) a <= U128MAX.
Proof.
  induction l as [|[[b w] v] l IH]; [cbn; pose proof U128MAX_pos; unfold iss; cbn; rewrite lookup_empty; cbn; lia|].
  cbn [mk_ledger foldr]. fold (mk_ledger l). cbn [fst snd].
  destruct (mint_into allow_all (mk_ledger l) b w v) as [L| |] eqn:E; auto.
  unfold mint_into in E. destruct (v =? 0); [injection E as <-; auto|]. destruct (negb _); [discriminate|]. destruct (_ <? _); [discriminate|].
  bstep E i Ei. injection E as <-. rewrite iss_set_iss, iss_set_bal. case_bool_decide; [lia|auto].
Qed.
Ltac fx_side := first [apply fx_user; lia | apply fx_u128; vm_compute; reflexivity | lia].
Lemma fx0_reachable : farm_reachable fxC allow_all fx0.
Proof. apply farm_reach_init; [apply mk_ledger_wf|apply mk_ledger_iss|lia]. Qed.
Lemma fx1_reachable : farm_reachable fxC allow_all fx1.
Proof.
  unfold fx1, fx_ops. cbn [fold_left].
  repeat (apply farm_reach_step; [|cbn [farm_op_ok]; repeat split; fx_side]). apply fx0_reachable.
Qed.
Lemma fxC_max : 0 <= max_locks fxC. Proof. cbn. lia. Qed.

(** C21 *)
Theorem C21_pool_total_is_sum_of_positions C P s :
  0 <= max_locks C -> farm_reachable C P s ->
  forall k p, fpools s !! k = Some p -> fp_total p = pool_sum s k ps_dep.
Proof. exact (fun HM R k p H => po_total _ _ _ (fi_pools _ _ (farm_reachable_inv C P s HM R) k p H)). Qed.
Print Assumptions C21_pool_total_is_sum_of_positions.
Example C21_example : someb (fpools fx1 !! fkA) (fun p => (fp_total p =? 2600) && (pool_sum fx1 fkA ps_dep =? 2600)) = true.
Proof. vm_compute. reflexivity. Qed.

(** C22.  The pool account of every asset holds at least all deposits, all cooling-down withdrawals, and (on top)
    all rewards dispatched and not yet claimed in that asset. *)
Theorem C22_principal_backed C P s :
  0 <= max_locks C -> farm_reachable C P s ->
  forall a, 0 <= reward_liability s a /\ principal s a + reward_liability s a <= bal (f_led s) a (pool_acct C a).
Proof.
  intros HM R a. pose proof (farm_reachable_inv C P s HM R) as HI.
  split; [exact (reward_liability_nonneg C s a HI)|exact (fi_solv _ _ HI a)].
Qed.
Print Assumptions C22_principal_backed.
Theorem C22_user_principal_backed C P s :
  0 <= max_locks C -> farm_reachable C P s ->
  forall k p w, fpools s !! k = Some p ->
    0 <= ps_dep (pos_get s k w) /\ 0 <= locked (pos_get s k w) /\
    ps_dep (pos_get s k w) + locked (pos_get s k w) <= bal (f_led s) k.1.1 (pool_acct C k.1.1).
Proof.
  intros HM R k p w Hp. pose proof (farm_reachable_inv C P s HM R) as HI.
  split; [exact (qo_dep _ _ _ _ (pos_get_ok C s k p w HI Hp))|].
  split; [exact (locked_nonneg C s k p w HI Hp)|exact (user_principal_backed C s k p w HI Hp)].
Qed.
Print Assumptions C22_user_principal_backed.
Example C22_example : farm_reachable fxC allow_all fx1 /\ principal fx1 7 = 3300 /\ reward_liability fx1 7 = 777 /\
  bal (f_led fx1) 7 (pool_acct fxC 7) = 4077 /\ reward_liability fx1 8 = 8502 /\ bal (f_led fx1) 8 (pool_acct fxC 8) = 8502.
Proof. split; [apply fx1_reachable|]. vm_compute. auto. Qed.

(** C23 *)
Theorem C23_withdraw_effect C P s w k amount s' :
  0 <= max_locks C -> farm_reachable C P s -> user_of C w -> 0 <= amount ->
  f_withdraw C P s w k amount = Ok s' ->
  exists p, let q := pos_get s k w in let q' := pos_get s' k w in
    fpools s !! k = Some p /\ 0 < amount <= ps_dep q /\
    fp_unlock p <= f_now s /\                                          (* never before the pool's unlock height *)
    ps_dep q' = ps_dep q - amount /\
    (fp_cool p <> 0 ->                                                  (* cooldown: nothing is paid, the amount is locked *)
       ps_locks q' = ps_locks q ++ [(amount, f_now s)] /\ forall a x, bal (f_led s') a x = bal (f_led s) a x) /\
    (fp_cool p = 0 ->                                                   (* no cooldown: exactly the amount is paid *)
       ps_locks q' = ps_locks q /\
       forall a x, bal (f_led s') a x = bal (f_led s) a x - at_ k.1.1 (pool_acct C k.1.1) a x amount + at_ k.1.1 w a x amount).
Proof.
  intros HM R Hw Ha E. pose proof (farm_reachable_inv C P s HM R) as HI.
  destruct (FarmProofs2.withdraw_full C P s w k amount s' HI Hw Ha E) as (p & p' & H). cbn zeta in H.
  destruct H as (G0 & G1 & G2 & _ & _ & _ & _ & _ & _ & _ & _ & G & GB & _). exists p. cbn zeta.
  rewrite (pos_get_eq _ _ _ _ k w _ G), bool_decide_true by auto. cbn [ps_dep ps_locks].
  split; [exact G0|]. split; [exact G1|]. split; [exact G2|]. split; [reflexivity|]. split.
  - intros Hc. destruct (fp_cool p =? 0) eqn:Ec; [lia|]. split; [reflexivity|]. intros a x. rewrite GB. unfold at_. repeat case_bool_decide; lia.
  - intros Hc. destruct (fp_cool p =? 0) eqn:Ec; [|lia]. split; [reflexivity|]. exact GB.
Qed.
Print Assumptions C23_withdraw_effect.
Theorem C23_redeem_effect C P s w k s' :
  0 <= max_locks C -> farm_reachable C P s -> user_of C w -> f_now s < U32MAX ->
  f_redeem C P s w k = Ok s' ->
  exists p, let q := pos_get s k w in let q' := pos_get s' k w in
    let due := cooled_total p (f_now s) (ps_locks q) in
    fpools s !! k = Some p /\
    ps_locks q' = List.filter (fun it => negb (cooled p (f_now s) it)) (ps_locks q) /\
    ps_dep q' = ps_dep q /\
    (forall a x, bal (f_led s') a x = bal (f_led s) a x - at_ k.1.1 (pool_acct C k.1.1) a x due + at_ k.1.1 w a x due).
Proof.
  intros HM R Hw Hn E. pose proof (farm_reachable_inv C P s HM R) as HI.
  destruct (redeem_full C P s w k s' HI Hw E) as (p & H). cbn zeta in H.
  destruct H as (G0 & _ & _ & G & GB & _). exists p. cbn zeta.
  assert (forall it, matured p (f_now s) it = cooled p (f_now s) it) as Hm.
  { intros it. unfold matured, unlock_block, cooled. lia. }
  rewrite (pos_get_eq _ _ _ _ k w _ G), bool_decide_true by auto. cbn [ps_dep ps_locks].
  split; [exact G0|]. split; [apply List.filter_ext; intros; rewrite Hm; reflexivity|]. split; [reflexivity|].
  assert (matured_sum p (f_now s) (ps_locks (pos_get s k w)) = cooled_total p (f_now s) (ps_locks (pos_get s k w))) as <-.
  { clear -Hm. unfold matured_sum, cooled_total. induction (ps_locks (pos_get s k w)) as [|it l IH]; [reflexivity|].
    unfold lsum in *. cbn. rewrite IH, Hm. reflexivity. }
  exact GB.
Qed.
Print Assumptions C23_redeem_effect.
(** two locked withdrawals (blocks 30 and 35, cooldown 10): at block 41 only the first is due *)
Example C23_example :
  ps_locks (pos_get fx1 fkA 10) = [(300, 30); (100, 35)] /\
  okb (f_redeem fxC allow_all fx1 10 fkA) (fun s => (bal (f_led s) 7 10 - bal (f_led fx1) 7 10 =? 300)
        && bool_decide (ps_locks (pos_get s fkA 10) = [(100, 35)])) = true.
Proof. split; vm_compute; reflexivity. Qed.

(** C24 *)
Theorem C24_rewards_never_over_distributed C P s :
  0 <= max_locks C -> farm_reachable C P s ->
  forall k p, fpools s !! k = Some p ->
    claimed s k + total_claimable s k <= dispatched s k /\
    forall w, 0 <= user_claimable s k w <= bal (f_led s) k.1.2 (pool_acct C k.1.2).
Proof.
  intros HM R k p Hp. pose proof (farm_reachable_inv C P s HM R) as HI. split; [exact (total_claimable_bound C s k p HI Hp)|].
  intros w. unfold user_claimable. rewrite Hp. split; [exact (claimable_nonneg C s k p w HI Hp)|exact (user_claimable_backed C s k p w HI Hp)].
Qed.
Print Assumptions C24_rewards_never_over_distributed.
Example C24_example : dispatched fx1 fkA = 10000 /\ claimed fx1 fkA = 1498 /\ total_claimable fx1 fkA = 600 /\ user_claimable fx1 fkA 10 = 600.
Proof. vm_compute. auto. Qed.

(** C25 *)
Theorem C25_accumulator_monotone C P s o k p :
  0 <= max_locks C -> farm_reachable C P s -> farm_op_ok C o -> fpools s !! k = Some p ->
  exists p', fpools (farm_exec C P s o) !! k = Some p' /\ fp_rps p <= fp_rps p'.
Proof.
  intros HM R HO Hp. destruct (pool_mono C P s o k p (farm_reachable_inv C P s HM R) HO Hp) as (p' & H1 & H2 & _). eauto.
Qed.
Print Assumptions C25_accumulator_monotone.
Theorem C25_reward_never_lost C P s o k w :
  0 <= max_locks C -> farm_reachable C P s -> farm_op_ok C o -> o <> FClaim w k ->
  user_claimable s k w <= user_claimable (farm_exec C P s o) k w.
Proof. exact (fun HM R => claimable_never_lost C P s o k w (farm_reachable_inv C P s HM R)). Qed.
Print Assumptions C25_reward_never_lost.
Theorem C25_claim_pays_exactly C P s w k s' :
  0 <= max_locks C -> farm_reachable C P s -> user_of C w -> f_claim C P s w k = Ok s' ->
  let reward := user_claimable s k w in
  user_claimable s' k w = 0 /\
  ps_dep (pos_get s' k w) = ps_dep (pos_get s k w) /\ ps_locks (pos_get s' k w) = ps_locks (pos_get s k w) /\
  (forall a x, bal (f_led s') a x = bal (f_led s) a x - at_ k.1.2 (pool_acct C k.1.2) a x reward + at_ k.1.2 w a x reward).
Proof.
  intros HM R Hw E. pose proof (farm_reachable_inv C P s HM R) as HI.
  destruct (claim_full C P s w k s' HI Hw E) as (p & p' & H). cbn zeta in H.
  destruct H as (G0 & _ & G1 & _ & G2 & G3 & G4 & _ & _ & _ & G & GB & GN & _). cbn zeta.
  unfold user_claimable. rewrite G0, G1, lookup_insert, GN.
  rewrite (pos_get_eq _ _ _ _ k w _ G), bool_decide_true by auto. cbn [ps_dep ps_locks].
  split; [|split; [reflexivity|split; [reflexivity|exact GB]]].
  unfold claimable. cbn [ps_reward ps_dep ps_paid]. rewrite (rps_at_settled p' (f_now s)) by (rewrite G3, G4; lia).
  rewrite G2, Z.sub_diag, Z.mul_0_r, Z.div_0_l by (pose proof SHARE_pos; lia). reflexivity.
Qed.
Print Assumptions C25_claim_pays_exactly.
Example C25_example : okb (f_claim fxC allow_all fx1 10 fkA) (fun s => (bal (f_led s) 8 10 =? 600) && (user_claimable s fkA 10 =? 0)) = true.
Proof. vm_compute. reflexivity. Qed.

(** C45.  Redeeming is never blocked; withdrawing and claiming are blocked by nothing but an overflowing accumulator ... *)
Theorem C45_redeem_never_blocked C P s k p w :
  0 <= max_locks C -> farm_reachable C P s -> permits P -> fpools s !! k = Some p ->
  exists s', f_redeem C P s w k = Ok s'.
Proof. exact (fun HM R => redeem_live C P s k p w (farm_reachable_inv C P s HM R)). Qed.
Print Assumptions C45_redeem_never_blocked.
Theorem C45_withdraw_not_blocked_partial C P s k p w amount :
  0 <= max_locks C -> farm_reachable C P s -> permits P -> fpools s !! k = Some p ->
  rps_at p (f_now s) <= U128MAX ->
  0 < amount <= ps_dep (pos_get s k w) -> fp_unlock p <= f_now s ->
  (fp_cool p = 0 \/ Z.of_nat (length (ps_locks (pos_get s k w))) < max_locks C) ->
  exists s', f_withdraw C P s w k amount = Ok s'.
Proof. exact (fun HM R => FarmProofs3.withdraw_live C P s k p w amount (farm_reachable_inv C P s HM R)). Qed.
Print Assumptions C45_withdraw_not_blocked_partial.
Theorem C45_claim_not_blocked_partial C P s k p w :
  0 <= max_locks C -> farm_reachable C P s -> permits P -> fpools s !! k = Some p ->
  rps_at p (f_now s) <= U128MAX ->
  exists s', f_claim C P s w k = Ok s'.
Proof. exact (fun HM R => claim_live C P s k p w (farm_reachable_inv C P s HM R)). Qed.
Print Assumptions C45_claim_not_blocked_partial.
Example C45_example : permits allow_all /\ someb (fpools fx1 !! fkA) (fun p => (rps_at p (f_now fx1) <=? U128MAX) && (fp_unlock p <=? f_now fx1)
    && (ps_dep (pos_get fx1 fkA 10) =? 600) && (Z.of_nat (length (ps_locks (pos_get fx1 fkA 10))) <? max_locks fxC)) = true.
Proof. split; [intros ? ? ? ? ? ?; reflexivity|]. vm_compute. reflexivity. Qed.
(** ... but the accumulator can overflow u128 when few units are staked, and from then on no withdrawal is possible: the
    principal of every staker is stuck although the pool is unlocked and has no cooldown. *)
Definition fx_stuck : farm :=
  fold_left (farm_exec fxC allow_all)
    [FCreate Root 7 8 0 0; FStatus Root (7, 8, 0) true; FDeposit 10 (7, 8, 0) 1; FDispatch Root (7, 8, 0) 12 (10^30) 1000; FBlock 1000] fx0.
Lemma fx_stuck_reachable : farm_reachable fxC allow_all fx_stuck.
Proof.
  unfold fx_stuck. cbn [fold_left].
  repeat (apply farm_reach_step; [|cbn [farm_op_ok]; repeat split; fx_side]). apply fx0_reachable.
Qed.
Theorem C45_withdraw_never_blocked_refuted :
  exists C P s k p w amount,
    0 <= max_locks C /\ farm_reachable C P s /\ permits P /\ fpools s !! k = Some p /\
    0 < amount <= ps_dep (pos_get s k w) /\ fp_unlock p <= f_now s /\ fp_cool p = 0 /\
    f_withdraw C P s w k amount = Err "Overflow" /\ f_claim C P s w k = Err "Overflow".
Proof.
  destruct (someb_spec (fpools fx_stuck !! (7, 8, 0)) (fun p => (fp_unlock p <=? f_now fx_stuck) && (fp_cool p =? 0))) as (p & E & H);
    [vm_compute; reflexivity|]. apply andb_prop in H as [H1 H2].
  exists fxC, allow_all, fx_stuck, (7, 8, 0), p, 10, 1.
  split; [apply fxC_max|]. split; [apply fx_stuck_reachable|]. split; [intros ? ? ? ? ? ?; reflexivity|]. split; [exact E|].
  assert (ps_dep (pos_get fx_stuck (7, 8, 0) 10) = 1) as -> by (vm_compute; reflexivity).
  split; [lia|]. split; [lia|]. split; [lia|]. split; vm_compute; reflexivity.
Qed.
Print Assumptions C45_withdraw_never_blocked_refuted.

(** C46.  A dispatch charges the payer exactly the amount and re-spreads it with what was left over: the new schedule
    (rate x duration) never exceeds and is short of it by less than [duration] units ... *)
Theorem C46_dispatch_effect_partial C P s o k payer amount duration s' :
  0 <= max_locks C -> farm_reachable C P s -> user_of C payer -> 0 <= amount <= U128MAX -> 0 <= duration ->
  f_dispatch C P s o k payer amount duration = Ok s' ->
  exists p p', let left := Z.max 0 (fp_finish p - f_now s) * fp_rate p in
    farm_update C o = true /\ fpools s !! k = Some p /\ fpools s' !! k = Some p' /\
    fp_finish p' = f_now s + duration /\ fp_last p' = f_now s /\
    fp_rate p' * duration <= left + amount < fp_rate p' * duration + duration /\
    (forall w, user_claimable s' k w = user_claimable s k w) /\
    (forall a x, bal (f_led s') a x = bal (f_led s) a x - at_ k.1.2 payer a x amount + at_ k.1.2 (pool_acct C k.1.2) a x amount).
Proof.
  intros HM R Hp Ha Hd E. pose proof (farm_reachable_inv C P s HM R) as HI.
  destruct (dispatch_full C P s o k payer amount duration s' HI Hp Ha Hd E) as (p & p' & H). cbn zeta in H.
  destruct H as (G0 & G1 & G2 & G3 & G4 & G5 & G6 & G7 & G8 & _ & _ & G9 & G10 & G11 & _). exists p, p'. cbn zeta.
  split; [exact G0|]. split; [exact G1|]. split; [rewrite G3; apply lookup_insert|]. split; [exact G5|]. split; [exact G6|].
  split.
  - assert ((if fp_finish p <=? f_now s then 0 else (fp_finish p - f_now s) * fp_rate p) = Z.max 0 (fp_finish p - f_now s) * fp_rate p) as El.
    { destruct (fp_finish p <=? f_now s) eqn:E0; [replace (Z.max 0 (fp_finish p - f_now s)) with 0 by lia; lia|].
      replace (Z.max 0 (fp_finish p - f_now s)) with (fp_finish p - f_now s) by lia. reflexivity. }
    rewrite El in G4. rewrite G4.
    pose proof (Z.div_mod (Z.max 0 (fp_finish p - f_now s) * fp_rate p + amount) duration ltac:(lia)).
    pose proof (Z.mod_pos_bound (Z.max 0 (fp_finish p - f_now s) * fp_rate p + amount) duration ltac:(lia)). lia.
  - split; [|exact G10]. intros w. unfold user_claimable. rewrite G1, G3, lookup_insert, G11.
    unfold pos_get. rewrite G9. unfold claimable. rewrite (rps_at_settled p' (f_now s)) by (rewrite G6; lia). rewrite G7. reflexivity.
Qed.
Print Assumptions C46_dispatch_effect_partial.
Example C46_example : okb (f_dispatch fxC allow_all fx1 Root fkA 12 1000 77) (fun s => someb (fpools s !! fkA) (fun p =>
   (fp_rate p =? 115) && (fp_finish p =? 118))) = true.
Proof. vm_compute. reflexivity. Qed.
(** ... but not everything dispatched can be claimed: after the end of the period, with the only staker present throughout,
    the remainder stays in the pool account (here everything: 99 units over 100 blocks give rate 0). *)
Definition fx_dust : farm :=
  fold_left (farm_exec fxC allow_all)
    [FCreate Root 7 8 0 0; FStatus Root (7, 8, 0) true; FDeposit 10 (7, 8, 0) 1000; FDispatch Root (7, 8, 0) 12 99 100; FBlock 1000] fx0.
Lemma fx_dust_reachable : farm_reachable fxC allow_all fx_dust.
Proof.
  unfold fx_dust. cbn [fold_left].
  repeat (apply farm_reach_step; [|cbn [farm_op_ok]; repeat split; fx_side]). apply fx0_reachable.
Qed.
Theorem C46_everything_dispatched_is_claimable_refuted :
  exists C P s k p,
    0 <= max_locks C /\ farm_reachable C P s /\ fpools s !! k = Some p /\ 0 < fp_total p /\ fp_finish p <= f_now s /\
    claimed s k + total_claimable s k = 0 /\ dispatched s k = 99.
Proof.
  destruct (someb_spec (fpools fx_dust !! (7, 8, 0)) (fun p => (fp_finish p <=? f_now fx_dust) && (0 <? fp_total p))) as (p & E & H);
    [vm_compute; reflexivity|]. apply andb_prop in H as [H1 H2].
  exists fxC, allow_all, fx_dust, (7, 8, 0), p.
  split; [apply fxC_max|]. split; [apply fx_dust_reachable|]. split; [exact E|]. split; [lia|]. split; [lia|]. split; vm_compute; reflexivity.
Qed.
Print Assumptions C46_everything_dispatched_is_claimable_refuted.

(** C47.  A user's position in a pool is changed by nobody else, and deposit does exactly what it says. *)
Theorem C47_position_only_changed_by_owner C P s o k w :
  0 <= max_locks C -> farm_reachable C P s -> farm_op_ok C o ->
  pos_get (farm_exec C P s o) k w <> pos_get s k w ->
  (exists amt, o = FDeposit w k amt \/ o = FWithdraw w k amt) \/ o = FRedeem w k \/ o = FClaim w k.
Proof.
  intros HM R HO Hne. destruct (touches_dec o k w) as [Ht|Ht].
  - destruct o; cbn in Ht; try contradiction; destruct Ht as [-> ->]; eauto.
  - destruct Hne. apply pos_frame; auto. apply (farm_reachable_inv C P s HM R).
Qed.
Print Assumptions C47_position_only_changed_by_owner.
Theorem C47_deposit_effect C P s w k amount s' :
  0 <= max_locks C -> farm_reachable C P s -> user_of C w -> 0 <= amount -> f_deposit C P s w k amount = Ok s' ->
  exists p, fpools s !! k = Some p /\ fp_active p = true /\ 0 < amount /\
    ps_dep (pos_get s' k w) = ps_dep (pos_get s k w) + amount /\ ps_locks (pos_get s' k w) = ps_locks (pos_get s k w) /\
    user_claimable s' k w = user_claimable s k w /\
    (forall a x, bal (f_led s') a x = bal (f_led s) a x - at_ k.1.1 w a x amount + at_ k.1.1 (pool_acct C k.1.1) a x amount).
Proof.
  intros HM R Hw Ha E. pose proof (farm_reachable_inv C P s HM R) as HI.
  destruct (FarmProofs2.deposit_full C P s w k amount s' HI Hw Ha E) as (p & p' & H). cbn zeta in H.
  destruct H as (G0 & G1 & G2 & G3 & _ & G4 & G5 & G6 & _ & _ & _ & G & GB & GN & _). exists p.
  unfold user_claimable. rewrite G0, G3, lookup_insert, GN.
  rewrite (pos_get_eq _ _ _ _ k w _ G), bool_decide_true by auto. cbn [ps_dep ps_locks].
  split; [reflexivity|]. do 2 (split; [assumption|]). split; [reflexivity|]. split; [reflexivity|]. split; [|exact GB].
  unfold claimable at 1. cbn [ps_reward ps_dep ps_paid]. rewrite (rps_at_settled p' (f_now s)) by (rewrite G5, G6; lia).
  rewrite G4, Z.sub_diag, Z.mul_0_r, Z.div_0_l by (pose proof SHARE_pos; lia). lia.
Qed.
Print Assumptions C47_deposit_effect.
Example C47_example : okb (f_deposit fxC allow_all fx1 11 fkA 50) (fun s => (ps_dep (pos_get s fkA 11) =? 2050) && (user_claimable s fkA 10 =? 600)) = true.
Proof. vm_compute. reflexivity. Qed.
