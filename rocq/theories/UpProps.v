(** * UpProps: storage upgrades of lending and of the asset registry (C168-C171). *)
From Verif Require Import Base MapSum Ledger AmmModel AmmEx LoansModel LoansSpec LoansProofs LoansProofs3 LoansProofs4 LoansEx RegModel RegSpec RegProofs UpModel UpSpec UpProofs.
From Verif Require RegProps.

(** ** a concrete old state: the example of the lending properties with its markets in the old encoding *)
Definition down (m : market) : v2_market := mkV2 (mk_cf m) (mk_rf m) (mk_close m) (mk_inc m) (mk_model m) (mk_state m) (mk_scap m) (mk_bcap m) (mk_pt m).
Definition unlast (m : macc) : macc := mkMacc 0 (m_supply m) (m_borrows m) (m_res m) (m_index m) (m_ex m) (m_util m) (m_brate m) (m_srate m).
Definition ox (s : loans) (racc : gmap Z Z) (last : Z) : old_books :=
  mkOld (down <$> ln_mkts s) ∅ racc last (st_mkts (st_acc s (unlast <$> ln_acc s)) ∅).

(** ** C168.  The upgrade of lending keeps every market, position and token, gives each market a liquidation threshold between its
    collateral factor and 100 percent, and makes nobody liquidatable whose debts are within the collateral. *)
Theorem C168_upgrade_exact v o v' s : loans_migrate v o = Some (v', s) ->
  v = 2 /\ v' = 3 /\
  (forall a, match ob_mkts o !! a with
             | Some m => exists mk, ln_mkts s !! a = Some mk /\ mk_cf mk = o_cf m /\ mk_lt mk = Z.min (10 ^ 6) (o_cf m + o_cf m * 100000 / 10 ^ 6) /\ mk_incres mk = 30000 /\
                 mk_rf mk = o_rf m /\ mk_close mk = o_close m /\ mk_inc mk = o_inc m /\ mk_model mk = o_model m /\ mk_state mk = o_state m /\ mk_scap mk = o_scap m /\ mk_bcap mk = o_bcap m /\ mk_pt mk = o_pt m
             | None => ln_mkts s !! a = None end) /\
  ln_led s = ln_led (ob_rest o) /\ ln_deps s = ln_deps (ob_rest o) /\ ln_debts s = ln_debts (ob_rest o) /\ ln_acc s = ln_acc (ob_rest o) /\ ln_under s = ln_under (ob_rest o) /\
  ln_earn s = ln_earn (ob_rest o) /\ ln_six s = ln_six (ob_rest o) /\ ln_bix s = ln_bix (ob_rest o) /\ ln_racc s = ln_racc (ob_rest o) /\ ln_free s = ln_free (ob_rest o) /\
  (forall a x, ob_speed o !! a = Some x -> r_ss (rew_of s a) = x /\ r_bs (rew_of s a) = x) /\
  (forall a, ob_speed o !! a = None -> rew_of s a = rew_of (ob_rest o) a) /\
  (forall a, r_si (rew_of s a) = r_si (rew_of (ob_rest o) a) /\ r_sb (rew_of s a) = r_sb (rew_of (ob_rest o) a) /\ r_bi (rew_of s a) = r_bi (rew_of (ob_rest o) a) /\ r_bb (rew_of s a) = r_bb (rew_of (ob_rest o) a)).
Proof.
  unfold loans_migrate. destruct (v =? 2) eqn:Ev; [|discriminate]. intros [= <- <-]. split; [lia|]. split; [reflexivity|]. split.
  { intros a. unfold up_books. change (ln_mkts (st_rew (st_mkts ?x ?y) ?z)) with y. rewrite lookup_fmap. destruct (ob_mkts o !! a) as [m|]; [|reflexivity]. exists (up_market m). cbn. rewrite <- PMILL_val. repeat split. }
  do 10 (split; [reflexivity|]). split; [|split]; intros a; try intros x Hx; try intros Hx; rewrite up_speed; try rewrite Hx; auto. destruct (ob_speed o !! a); auto.
Qed.
Print Assumptions C168_upgrade_exact.
Theorem C168_threshold_bounds o a m mk : ob_mkts o !! a = Some m -> ln_mkts (up_books o) !! a = Some mk -> 0 <= o_cf m <= 10 ^ 6 -> mk_cf mk <= mk_lt mk <= 10 ^ 6.
Proof.
  intros Hm Hk H. unfold up_books in Hk. change (ln_mkts (st_rew (st_mkts ?x ?y) ?z)) with y in Hk. rewrite lookup_fmap, Hm in Hk. injection Hk as <-. rewrite <- PMILL_val in *. apply up_lt. exact H.
Qed.
Print Assumptions C168_threshold_bounds.
Theorem C168_nobody_becomes_liquidatable C v o v' s w a amt mk : loans_migrate v o = Some (v', s) -> sound_books C s -> (forall b m, ob_mkts o !! b = Some m -> 0 <= o_cf m <= 10 ^ 6) ->
  borrow_worth s w <= collateral_worth C s w -> lf_collateral_worth C s w - lf_debt_worth C s w <= collateral_worth C s w - borrow_worth s w ->
  liquidate_allowed C s w a amt mk <> Ok tt.
Proof.
  unfold loans_migrate. destruct (v =? 2) eqn:Ev; [|discriminate]. intros [= <- <-] HS HM H1 H2. destruct (threshold_dominates C (up_books o) w HS) as [D1 D2].
  { intros b k Hk. pose proof Hk as Hk2. unfold up_books in Hk. change (ln_mkts (st_rew (st_mkts ?x ?y) ?z)) with y in Hk. rewrite lookup_fmap in Hk. destruct (ob_mkts o !! b) as [m|] eqn:Em; [|discriminate Hk].
    injection Hk as <-. pose proof (HM b m Em). split; [cbn; lia|]. apply (C168_threshold_bounds o b m _ Em Hk2). auto. }
  apply not_liquidatable; assumption.
Qed.
Print Assumptions C168_nobody_becomes_liquidatable.
Theorem C168_runs_once v o v' s o2 : loans_migrate v o = Some (v', s) -> loans_migrate v' o2 = None.
Proof. unfold loans_migrate. destruct (v =? 2); [|discriminate]. intros [= <- _]. reflexivity. Qed.
Print Assumptions C168_runs_once.
Lemma ox_sound C P s r t : cfg_ok C -> loans_reachable C P s -> sound_books C (up_books (ox s r t)).
Proof.
  intros HC R. pose proof (reachable_linv _ _ _ R) as [L _]. intros a w.
  assert (S : supply_of (up_books (ox s r t)) a = supply_of s a /\ borrows_of (up_books (ox s r t)) a = borrows_of s a /\ reserves_of (up_books (ox s r t)) a = reserves_of s a).
  { unfold supply_of, borrows_of, reserves_of, acc_of. change (ln_acc (up_books (ox s r t))) with (unlast <$> ln_acc s). rewrite lookup_fmap. destruct (ln_acc s !! a) as [m|]; auto. }
  destruct S as (S1 & S2 & S3). unfold backing. rewrite S1, S2, S3. pose proof (reachable_backing C P s a HC R) as HB.
  split; [|split; [|split]].
  - exact (proj1 (li_dep s L a w)).
  - exact (proj1 (proj1 (li_acc s L a))).
  - exact HB.
  - unfold price_of. change (ln_price (up_books (ox s r t))) with (ln_price s). destruct (ln_price s !! a) as [x|] eqn:E; [|cbn; lia]. exact (proj1 (li_price s L a x E)).
Qed.
Example C168_example : exists s, loans_migrate 2 (ox lx2 ∅ 0) = Some (3, s) /\ sound_books lxC s /\ borrow_worth s 101 <= collateral_worth lxC s 101 /\
  lf_collateral_worth lxC s 101 - lf_debt_worth lxC s 101 <= collateral_worth lxC s 101 - borrow_worth s 101 /\ borrow_worth s 101 > 300 * U /\
  someb (ln_mkts s !! 20) (fun mk => (mk_cf mk =? 500000) && (mk_lt mk =? 550000)) = true.
Proof.
  exists (up_books (ox lx2 ∅ 0)). split; [reflexivity|]. split; [apply (ox_sound lxC allow_all lx2 ∅ 0 lxC_ok lx2_reach)|]. split; [apply Z.leb_le; vm_compute; reflexivity|]. split; [apply Z.leb_le; vm_compute; reflexivity|].
  split; [apply Z.gt_lt_iff, Z.ltb_lt; vm_compute; reflexivity|vm_compute; reflexivity].
Qed.

(** ** C169.  After the upgrade users can claim what they had been credited, debts bear interest for the whole time, and governance can
    adjust every market.  Refuted: rewards credited under the old name cannot be claimed, the time between the last accrual and the
    first one after the upgrade bears no interest, and markets with a collateral factor of 91 percent or more cannot be updated. *)
Theorem C169_rewards_lost_refuted : exists C P o w s s', loans_migrate 2 o = Some (3, s) /\ ob_racc o !! w = Some (5 * U) /\ 5 * U <= bal (ln_led s) (rew_asset C) (rew_acct C) /\
  claim_reward C P s w = Ok s' /\ bal (ln_led s') (rew_asset C) w = bal (ln_led s) (rew_asset C) w.
Proof.
  set (o := ox lx2 {[ 105 := 5 * U ]} 0).
  assert (B : okb (claim_reward lxC allow_all (up_books o) 105) (fun s' => bal (ln_led s') 900 105 =? bal (ln_led (up_books o)) 900 105) = true) by (vm_compute; reflexivity).
  apply okb_spec in B as (s' & H & B). apply Z.eqb_eq in B. exists lxC, allow_all, o, 105, (up_books o), s'. split; [reflexivity|]. split; [vm_compute; reflexivity|]. split; [apply Z.leb_le; vm_compute; reflexivity|]. auto.
Qed.
Print Assumptions C169_rewards_lost_refuted.
(** whatever time has passed since the last accrual before the upgrade: the first accrual after it changes no debt *)
Theorem C169_gap_bears_no_interest_refuted C v o v' s a t b : loans_migrate v o = Some (v', s) -> m_last (acc_of (ob_rest o) a) = 0 ->
  exists s', accrue C (st_clock s t b) a = Ok s' /\ borrows_of s' a = borrows_of s a /\ index_of s' a = index_of s a /\ reserves_of s' a = reserves_of s a /\
  forall w, debt_now s' a w = debt_now s a w.
Proof.
  unfold loans_migrate. destruct (v =? 2); [|discriminate]. intros [= <- <-] HL. unfold accrue. change (acc_of (st_clock (up_books o) t b) a) with (acc_of (ob_rest o) a). rewrite HL. cbn [Z.eqb].
  eexists. split; [reflexivity|]. assert (X : forall s m, acc_of (put_acc s a m) a = m) by (intros s m; unfold acc_of, put_acc; change (ln_acc (st_acc s ?x)) with x; rewrite lookup_insert; reflexivity).
  assert (Y : acc_of (up_books o) a = acc_of (ob_rest o) a) by reflexivity.
  unfold borrows_of, index_of, reserves_of. rewrite !X, Y. do 3 (split; [reflexivity|]). intros w. unfold debt_now, index_of. rewrite X, Y. reflexivity.
Qed.
Print Assumptions C169_gap_bears_no_interest_refuted.
Theorem C169_stuck_market_refuted : exists C o s a m, loans_migrate 2 o = Some (3, s) /\ ob_mkts o !! a = Some m /\ old_market_ok m /\ ln_update C Root = true /\
  forall rf close incres inc scap bcap, update_market C s Root a None None rf close incres inc scap bcap = Err "InvalidFactor".
Proof.
  set (m := mkV2 910000 150000 500000 (11 * 10 ^ 17) lxJ Active (10 ^ 20) (10 ^ 20) 1010).
  exists lxC, (mkOld {[ 10 := m ]} ∅ ∅ 0 lx0), (up_books (mkOld {[ 10 := m ]} ∅ ∅ 0 lx0)), 10, m. split; [reflexivity|]. split; [apply lookup_singleton|].
  split; [unfold old_market_ok; cbn; rewrite PMILL_val; lia|]. split; [reflexivity|]. intros. reflexivity.
Qed.
Print Assumptions C169_stuck_market_refuted.
(** below ten elevenths (90.9 percent) the market stays adjustable *)
Theorem C169_market_adjustable_partial C v o v' s org a m close incres inc bcap : loans_migrate v o = Some (v', s) -> ob_mkts o !! a = Some m -> old_market_ok m -> 11 * o_cf m < 10 * 10 ^ 6 -> ln_update C org = true ->
  is_ok (update_market C s org a None None None close incres inc None bcap) = true.
Proof.
  unfold loans_migrate. destruct (v =? 2); [|discriminate]. intros [= <- <-] Hm (O1 & O2 & O3) HB HO. unfold update_market, get_market. rewrite HO. cbn [ensure rbind].
  assert (X : ln_mkts (up_books o) !! a = Some (up_market m)) by (change (ln_mkts (up_books o)) with (up_market <$> ob_mkts o); rewrite lookup_fmap, Hm; reflexivity).
  rewrite X. cbn [ok_or rbind default from_option]. pose proof (up_lt m ltac:(lia)). pose proof (up_lt_low m ltac:(rewrite PMILL_val; lia) ltac:(lia)).
  unfold id. change (mk_cf (up_market m)) with (o_cf m). change (mk_rf (up_market m)) with (o_rf m). change (mk_scap (up_market m)) with (o_scap m).
  replace (0 <=? o_cf m) with true by lia. replace (o_cf m <? PMILL) with true by lia. replace (o_cf m <=? mk_lt (up_market m)) with true by lia. replace (mk_lt (up_market m) <? PMILL) with true by lia.
  replace (0 <? o_rf m) with true by lia. replace (o_rf m <? PMILL) with true by lia. replace (0 <? o_scap m) with true by lia. reflexivity.
Qed.
Print Assumptions C169_market_adjustable_partial.
Example C169_example : exists s, loans_migrate 2 (ox lx2 ∅ 0) = Some (3, s) /\ m_last (acc_of (ob_rest (ox lx2 ∅ 0)) 10) = 0 /\ borrows_of s 10 > 300 * U /\
  old_market_ok (down (lxM lxJ 1010)) /\ is_ok (update_market lxC s Root 10 None None None None (Some 40000) None None None) = true.
Proof.
  eexists. split; [reflexivity|]. split; [vm_compute; reflexivity|]. split; [apply Z.gt_lt_iff, Z.ltb_lt; vm_compute; reflexivity|]. split; [unfold old_market_ok; cbn; rewrite PMILL_val; lia|vm_compute; reflexivity].
Qed.

(** ** C170.  The upgrade of the registry keeps all names: if the conversion of locations does not merge two locations, each asset keeps
    its (converted) location, each location its asset and price, and nothing new appears; the upgrade fails as a whole only if some
    location cannot be converted. *)
Definition injective (conv : Z -> option Z) : Prop := forall x y z, conv x = Some z -> conv y = Some z -> x = y.
Theorem C170_names_kept conv s s' : injective conv -> reg_upgrade conv s = Ok s' ->
  (forall id, get_asset_type s' id = obind (get_asset_type s id) conv) /\
  (forall id ty, get_asset_type s id = Some ty -> exists ty', conv ty = Some ty' /\ get_asset_type s' id = Some ty') /\
  (forall ty ty', conv ty = Some ty' -> get_asset_id s' ty' = get_asset_id s ty /\ get_units s' ty' = get_units s ty).
Proof.
  intros HI H. unfold reg_upgrade in H. destruct (revalue conv (r_id s)) as [i|] eqn:E1; [|discriminate H]. destruct (rekey conv (map_to_list (r_ty s)) ∅) as [t|] eqn:E2; [|discriminate H].
  destruct (rekey conv (map_to_list (r_ups s)) ∅) as [u|] eqn:E3; [|discriminate H]. destruct (conv_list conv (r_sup s)) as [l|] eqn:E4; [|discriminate H]. injection H as <-.
  unfold get_asset_type, get_asset_id, get_units. cbn [r_id r_ty r_ups]. split; [intros id; apply revalue_lookup; exact E1|]. split.
  - intros id ty Hty. destruct (revalue_total conv _ _ _ _ E1 Hty) as [ty' Hc]. exists ty'. split; [exact Hc|]. rewrite (revalue_lookup conv _ _ id E1), Hty. exact Hc.
  - intros ty ty' Hc. split; eapply rekey_lookup; eauto.
Qed.
Print Assumptions C170_names_kept.
Theorem C170_nothing_new conv s s' : injective conv -> reg_upgrade conv s = Ok s' ->
  (forall t id, get_asset_id s' t = Some id -> exists ty, conv ty = Some t /\ get_asset_id s ty = Some id) /\
  (forall t u, get_units s' t = Some u -> exists ty, conv ty = Some t /\ get_units s ty = Some u) /\
  (forall ty id, get_asset_id s ty = Some id -> exists t, conv ty = Some t) /\ (forall ty u, get_units s ty = Some u -> exists t, conv ty = Some t).
Proof.
  intros HI H. unfold reg_upgrade in H. destruct (revalue conv (r_id s)) as [i|] eqn:E1; [|discriminate H]. destruct (rekey conv (map_to_list (r_ty s)) ∅) as [t|] eqn:E2; [|discriminate H].
  destruct (rekey conv (map_to_list (r_ups s)) ∅) as [u|] eqn:E3; [|discriminate H]. destruct (conv_list conv (r_sup s)) as [l|] eqn:E4; [|discriminate H]. injection H as <-.
  unfold get_asset_id, get_units. cbn [r_ty r_ups]. destruct (rekey_map conv HI _ _ E2) as [A1 A2], (rekey_map conv HI _ _ E3) as [B1 B2].
  split; [intros q id Hq; destruct (A2 q id Hq) as (k & ? & ?); eauto|]. split; [intros q id Hq; destruct (B2 q id Hq) as (k & ? & ?); eauto|].
  split; intros q x Hq; [destruct (A1 q x Hq) as (k & ? & _)|destruct (B1 q x Hq) as (k & ? & _)]; eauto.
Qed.
Print Assumptions C170_nothing_new.
Theorem C170_fails_only_without_conversion conv s : 
  (forall id ty, get_asset_type s id = Some ty -> is_Some (conv ty)) -> (forall ty id, get_asset_id s ty = Some id -> is_Some (conv ty)) ->
  (forall ty u, get_units s ty = Some u -> is_Some (conv ty)) -> (forall ty, ty ∈ r_sup s -> is_Some (conv ty)) -> exists s', reg_upgrade conv s = Ok s'.
Proof.
  intros H1 H2 H3 H4.
  assert (R : forall l acc, (forall k v, (k, v) ∈ l -> is_Some (conv k)) -> exists m, rekey conv l acc = Some m).
  { induction l as [|[k v] l IH]; intros acc Hl; cbn; [eauto|]. destruct (Hl k v ltac:(left)) as [k' Hk]. rewrite Hk. cbn. apply IH. intros q x Hq. apply (Hl q x). right. exact Hq. }
  assert (Q : forall l, (forall x, x ∈ l -> is_Some (conv x)) -> exists r, conv_list conv l = Some r).
  { induction l as [|x l IH]; intros Hl; cbn; [eauto|]. destruct (Hl x ltac:(left)) as [y Hy]. rewrite Hy. cbn. destruct IH as [r Hr]; [intros z Hz; apply Hl; right; exact Hz|]. rewrite Hr. cbn. eauto. }
  unfold reg_upgrade. assert (V : exists i, revalue conv (r_id s) = Some i).
  { unfold revalue. replace (forallb _ _) with true; [eauto|]. symmetry. apply forallb_forall. intros [k v] Hin. apply elem_of_list_In, elem_of_map_to_list in Hin. destruct (H1 k v Hin) as [z Hz]. cbn. rewrite Hz. reflexivity. }
  destruct V as [i ->]. destruct (R (map_to_list (r_ty s)) ∅) as [t ->]; [intros k v Hk; apply (H2 k v), elem_of_map_to_list, Hk|].
  destruct (R (map_to_list (r_ups s)) ∅) as [u ->]; [intros k v Hk; apply (H3 k v), elem_of_map_to_list, Hk|]. destruct (Q (r_sup s) H4) as [l ->]. eauto.
Qed.
Print Assumptions C170_fails_only_without_conversion.

(** ** C171.  The upgrade keeps the set of assets accepted for fees.  Partial: if the conversion keeps the order of locations. *)
Theorem C171_fee_assets_kept_partial upd conv s s' ty ty' : reg_reachable upd s -> injective conv ->
  (forall x y x' y', conv x = Some x' -> conv y = Some y' -> x < y -> x' < y') ->
  reg_upgrade conv s = Ok s' -> conv ty = Some ty' -> payment_is_supported s' ty' = payment_is_supported s ty.
Proof.
  intros R HI HM H Hc. apply reg_inv_reach in R as (A & _ & _). unfold reg_upgrade in H. destruct (revalue conv (r_id s)); [|discriminate H]. destruct (rekey _ _ _); [|discriminate H].
  destruct (rekey _ (map_to_list (r_ups s)) _); [|discriminate H]. destruct (conv_list conv (r_sup s)) as [l|] eqn:E; [|discriminate H]. injection H as <-. unfold payment_is_supported. cbn [r_sup].
  pose proof (bsearch_iff (r_sup s) ty A) as B1. pose proof (bsearch_iff l ty' (conv_ascending conv HM _ _ E A)) as B2. rewrite (conv_elem conv HI _ _ _ _ E Hc), <- B1 in B2.
  destruct (match bsearch l ty' with inl _ => true | inr _ => false end), (match bsearch (r_sup s) ty with inl _ => true | inr _ => false end); intuition congruence.
Qed.
Print Assumptions C171_fee_assets_kept_partial.
(** Refuted for the real conversion: the keys (1 0) and (2) are in this order in version 2 and in the opposite order in version 3, so of two
    accepted assets one is no longer accepted after the upgrade, although its price is still there. *)
Definition kA : list Z := [1; 0].
Definition kB : list Z := [2].
Theorem C171_refuted e2 e3 conv : injective conv -> represents v2_before e2 kA kB -> represents v3_before e3 kA kB -> conv (e2 kA) = Some (e3 kA) -> conv (e2 kB) = Some (e3 kB) ->
  exists upd s s', reg_reachable upd s /\ reg_upgrade conv s = Ok s' /\
    payment_is_supported s (e2 kA) = true /\ payment_is_supported s (e2 kB) = true /\ get_units s' (e3 kA) = Some 7 /\ payment_is_supported s' (e3 kA) = false.
Proof.
  intros HI [HA _] [_ HB] C1 C2. specialize (HA eq_refl). specialize (HB eq_refl). set (x := e2 kA) in *. set (y := e2 kB) in *. set (x' := e3 kA) in *. set (y' := e3 kB) in *. clearbody x y x' y'.
  set (upd := fun o : origin => match o with Root => true | _ => false end).
  set (s := mkReg (<[2 := y]> (<[1 := x]> ∅)) (<[y := 2]> (<[x := 1]> ∅)) (<[y := 8]> (<[x := 7]> ∅)) [x; y]).
  assert (X1 : bsearch [x] y = inr 1%nat) by (unfold bsearch; cbn; replace (x <? y) with true by lia; reflexivity).
  assert (R : reg_reachable upd s).
  { eapply (rr_step upd _ (RUnits Root y 8)); [eapply (rr_step upd _ (RUnits Root x 7)); [eapply (rr_step upd _ (RRegister Root 2 y)); [eapply (rr_step upd _ (RRegister Root 1 x)); [apply rr_init|reflexivity]|reflexivity]|]|].
    - cbn [reg_step]. unfold update_units. cbn. rewrite lookup_insert_ne by lia. rewrite lookup_insert. cbn. reflexivity.
    - cbn [reg_step]. unfold update_units. cbn. rewrite lookup_insert. cbn. unfold add_supported. change (bsearch (vec_insert [] 0 x) y) with (bsearch [x] y). rewrite X1. reflexivity. }
  assert (G : exists s', reg_upgrade conv s = Ok s').
  { apply C170_fails_only_without_conversion; unfold get_asset_type, get_asset_id, get_units; cbn [r_id r_ty r_ups r_sup s].
    - intros id ty Hty. apply lookup_insert_Some in Hty as [[_ <-]|[_ Hty]]; [eauto|]. apply lookup_insert_Some in Hty as [[_ <-]|[_ Hty]]; [eauto|rewrite lookup_empty in Hty; discriminate Hty].
    - intros ty id Hty. apply lookup_insert_Some in Hty as [[<- _]|[_ Hty]]; [eauto|]. apply lookup_insert_Some in Hty as [[<- _]|[_ Hty]]; [eauto|rewrite lookup_empty in Hty; discriminate Hty].
    - intros ty id Hty. apply lookup_insert_Some in Hty as [[<- _]|[_ Hty]]; [eauto|]. apply lookup_insert_Some in Hty as [[<- _]|[_ Hty]]; [eauto|rewrite lookup_empty in Hty; discriminate Hty].
    - intros ty Hin. apply elem_of_cons in Hin as [->|Hin]; [eauto|]. apply elem_of_list_singleton in Hin as ->. eauto. }
  destruct G as [s' G]. exists upd, s, s'. split; [exact R|]. split; [exact G|].
  assert (S1 : payment_is_supported s x = true).
  { unfold payment_is_supported, bsearch. cbn. replace (y <? x) with false by lia. replace (x <? y) with true by lia. cbn. rewrite Z.ltb_irrefl. reflexivity. }
  assert (S2 : payment_is_supported s y = true). { unfold payment_is_supported, bsearch. cbn. rewrite Z.ltb_irrefl. reflexivity. }
  split; [exact S1|]. split; [exact S2|]. split.
  - destruct (C170_names_kept conv s s' HI G) as (_ & _ & N). rewrite (proj2 (N x x' C1)). unfold get_units. cbn [r_ups s]. rewrite lookup_insert_ne by lia. apply lookup_insert.
  - unfold reg_upgrade in G. destruct (revalue conv (r_id s)); [|discriminate G]. destruct (rekey conv (map_to_list (r_ty s)) ∅); [|discriminate G].
    destruct (rekey conv (map_to_list (r_ups s)) ∅) as [u|] eqn:EU; [|discriminate G]. cbn [conv_list r_sup s] in G. rewrite C1, C2 in G. cbn [obind conv_list] in G. injection G as <-.
    unfold payment_is_supported, bsearch. cbn. replace (y' <? x') with true by lia. reflexivity.
Qed.
Print Assumptions C171_refuted.
(** representations with these orders exist; and a registry on which the upgrade keeps everything *)
Definition e2x (k : list Z) : Z := match k with [1; 0] => 10 | [2] => 20 | _ => 0 end.
Definition e3x (k : list Z) : Z := match k with [1; 0] => 40 | [2] => 30 | _ => 0 end.
Definition convx (x : Z) : option Z := if x =? 10 then Some 40 else if x =? 20 then Some 30 else None.
Lemma convx_inj : injective convx.
Proof. intros x y z. unfold convx. destruct (x =? 10) eqn:E1, (y =? 10) eqn:E2, (x =? 20) eqn:E3, (y =? 20) eqn:E4; intros [= <-] [=]; lia. Qed.
Example C171_example_refuted : injective convx /\ represents v2_before e2x kA kB /\ represents v3_before e3x kA kB /\ convx (e2x kA) = Some (e3x kA) /\ convx (e2x kB) = Some (e3x kB).
Proof. split; [apply convx_inj|]. unfold represents. repeat split; vm_compute; intros; congruence. Qed.
Definition shift (x : Z) : option Z := Some (x + 1000).
Definition u_run : reg := RegProps.z_run [RRegister Root 1 50; RRegister Root 2 40; RUnits Root 50 7; RUnits Root 40 8].
Example C170_example : injective shift /\ okb (reg_upgrade shift u_run) (fun s' => bool_decide (get_asset_id s' 1050 = Some 1) && bool_decide (get_asset_type s' 2 = Some 1040) && bool_decide (get_units s' 1040 = Some 8) && bool_decide (get_asset_id s' 50 = None)) = true.
Proof. split; [intros x y z [= <-] [= ?]; lia|]. vm_compute. reflexivity. Qed.
Example C171_example : reg_reachable RegProps.zU u_run /\ (forall x y x' y', shift x = Some x' -> shift y = Some y' -> x < y -> x' < y') /\ okb (reg_upgrade shift u_run) (fun s' => payment_is_supported s' 1050 && payment_is_supported s' 1040 && negb (payment_is_supported s' 1060)) = true.
Proof. split; [apply RegProps.z_reach|]. split; [intros x y x' y' [= <-] [= <-]; lia|]. vm_compute. reflexivity. Qed.
