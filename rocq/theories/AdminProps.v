(** * AdminProps: property theorems C48 (parameters change only through calls with the configured origin). *)
From Verif Require Import Base MapSum Ledger AmmModel AmmSpec AmmInv AmmEx StreamModel FarmModel LoansModel LoansSpec LoansProofs3 LoansProofs4 LoansProofs5 LoansProofs7 LoansEx AdminSpec AdminProofs.

(** ** exchange *)
Theorem C48_amm C P s o s' :
  amm_step C P s o = Ok s' -> pfee s' <> pfee s \/ preceiver s' <> preceiver s ->
  exists og, fee_origin C og = true /\
    ((exists f, o = OFee og f /\ pfee s' = f /\ preceiver s' = preceiver s) \/ (exists r, o = OReceiver og r /\ preceiver s' = Some r /\ pfee s' = pfee s)).
Proof.
  intros H Hd. destruct (amm_fee_only C P s o s' H) as [E Ho]. destruct o; injection E as E1 E2; try (exfalso; destruct Hd as [Hd|Hd]; congruence).
  - exists o. split; [exact Ho|]. left. eauto.
  - exists o. split; [exact Ho|]. right. eauto.
Qed.
Print Assumptions C48_amm.
Theorem C48_amm_pools C P s o s' k :
  AmmSpec.cfg_ok C -> amm_reachable C P s -> amm_op_ok C s o -> amm_step C P s o = Ok s' -> pools s !! k = None -> pools s' !! k <> None ->
  exists og a b amts r lp, o = OCreate og (a, b) amts r lp /\ k = pair_key a b /\ create_origin C og = true.
Proof. intros HC R. exact (amm_new_pool C P s o s' k HC (reachable_inv C P s HC R)). Qed.
Print Assumptions C48_amm_pools.
(** ** farming *)
Theorem C48_farming C P s o s' k :
  farm_step C P s o = Ok s' -> params_of s' k <> params_of s k -> exists og, fop_origin o = Some (og, k) /\ farm_update C og = true.
Proof. intros H. exact (farm_params C P s o s' H k). Qed.
Print Assumptions C48_farming.
(** ** streaming *)
Theorem C48_streaming C P s o s' a :
  str_step C P s o = Ok s' -> min_deposit s' !! a <> min_deposit s !! a ->
  exists og v, o = SSetMin og a v /\ update_origin C og = true /\ min_deposit s' !! a = Some v.
Proof.
  intros H Hd. pose proof (str_min_deposit C P s o s' H) as K. destruct o; try (exfalso; apply Hd; rewrite K; reflexivity).
  destruct K as [Ho K]. rewrite K in *. destruct (decide (asset = a)) as [->|Hn].
  - exists o, v. rewrite lookup_insert. auto.
  - rewrite lookup_insert_ne in Hd by auto. congruence.
Qed.
Print Assumptions C48_streaming.
(** ** lending *)
Theorem C48_lending_parameters C P s c s' :
  loans_exec C P s c = Ok s' -> loans_params s' <> loans_params s -> exists og, governance_origin c = Some og /\ ln_update C og = true.
Proof.
  intros H Hd. destruct (exec_origin C P s c s' H) as [Ho _].
  destruct (governance_origin c) as [og|] eqn:Eg; [eauto|]. exfalso. apply Hd.
  destruct (exec_params C P s c s' H) as (E1 & E2 & E3 & _); [destruct c; cbn in *; (discriminate || tauto)|].
  unfold loans_params. congruence.
Qed.
Print Assumptions C48_lending_parameters.
Theorem C48_lending_origins C P s c s' og :
  loans_exec C P s c = Ok s' ->
  (governance_origin c = Some og -> ln_update C og = true) /\ (reserve_origin c = Some og -> ln_reserve C og = true).
Proof. intros H. destruct (exec_origin C P s c s' H) as [H1 H2]. auto. Qed.
Print Assumptions C48_lending_origins.
(** the reserves of a market fall only by [reduce_reserves], by exactly what the receiver gets *)
Theorem C48_lending_reserves C P s c s' a :
  loans_reachable C P s -> call_ok C c -> loans_exec C P s c = Ok s' -> reserves_of s' a < reserves_of s a ->
  exists og r amt, c = LReduceReserves og r a amt /\ ln_reserve C og = true /\ amt <= reserves_of s a /\
    reserves_of s' a = reserves_of s a - amt /\ moved (ln_led s) (ln_led s') a (ln_acct C) r amt.
Proof.
  intros R Hc H Hlt. pose proof (exec_reserves C P s c s' (reachable_linv C P s R) Hc H) as K.
  destruct c; try (specialize (K a); lia). clear K. cbn in H, Hc.
  destruct (reduce_reserves_full C P s o receiver a0 amt s' (proj1 Hc) H) as (E1 & E2 & E3 & E4 & E5).
  destruct (decide (a0 = a)) as [->|Hn]; [|rewrite E4 in Hlt by auto; lia]. exists o, receiver, amt. auto.
Qed.
Print Assumptions C48_lending_reserves.
(** governance can reduce the reserves of the running market of [LoansEx], a user cannot, and the call has an effect *)
Example C48_example :
  okb (loans_exec lxC allow_all lx2 (LReduceReserves Root 102 10 (6 * U))) (fun s => (reserves_of s 10 =? 6 * U / 10) && (bal (ln_led s) 10 102 =? bal (ln_led lx2) 10 102 + 6 * U)) = true /\
  loans_exec lxC allow_all lx2 (LReduceReserves (Signed 102) 102 10 (6 * U)) = Err "BadOrigin" /\
  loans_exec lxC allow_all lx2 (LFree (Signed 102) [10]) = Err "BadOrigin" /\
  okb (loans_exec lxC allow_all lx2 (LFree Root [10])) (fun s => bool_decide (ln_free s = [10])) = true /\ ln_free lx2 = [30].
Proof. vm_compute. auto. Qed.
