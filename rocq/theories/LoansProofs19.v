(** * LoansProofs19: withdrawals go through, claims pay exactly what was earned, missing prices. *)
From Verif Require Import Base MapSum Ledger AmmModel AmmProofs5 LoansModel LoansSpec LoansSpec2 LoansProofs LoansProofs2 LoansProofs3 LoansProofs4 LoansProofs5 LoansProofs7 LoansProofs12 LoansProofs13 LoansProofs15 LoansProofs16 LoansProofs17 LoansProofs18.

Section live2.
  Context (C : loans_cfg) (P : policy).

  Lemma redeem_prog s s1 w a mk (sel : Z -> Z) (v : Z) (all : bool) amt : cfg_ok C -> loans_reachable C P s -> ln_mkts s !! a = Some mk -> mk_state mk = Active -> lenient P -> accrue C s a = Ok s1 ->
    is_collateral s a w = false -> debt_now s1 a w <= U128MAX -> rewards_fit s1 a w -> earnings_fit s1 a w (rate_of C s1 a) ->
    0 < supply_of s1 a -> backing C s1 a < supply_of s1 a -> bal (ln_led s) a (ln_acct C) + borrows_of s1 a <= U128MAX ->
    0 <= amt -> v = (if all then vouchers s a w else amt * FDIV / rate_of C s1 a) -> v <= vouchers s a w -> v * rate_of C s1 a / FDIV + reserves_of s1 a <= bal (ln_led s) a (ln_acct C) ->
    exists s' x, (if all then do_redeem_all C P s w a else do_redeem C P s w a amt) = Ok (s', x).
  Proof.
    intros HC R Hm HA LP E Hc HD HF HE HS HB HM Ha Hv Hvv Hcash. pose proof (reachable_linv C P s R) as Hi. pose proof (accrue_linv C _ _ _ Hi E) as Hi1.
    pose proof (reachable_rinv C P s HC R) as RR. pose proof (accrue_rinv C _ _ _ Hi RR E) as R1. pose proof (accrue_grow C _ _ _ (proj1 Hi) E) as HG. pose proof (floor_grow C _ _ HG (reachable_floor C P s HC R)) as HFl.
    pose proof (accrue_mk C s a s1 a mk Hm E) as Hm1. destruct (li_mkt s1 (proj1 Hi1) a mk Hm1) as [_ HX]. pose proof (reachable_backing C P s a HC R) as HB0. destruct (HG a) as [_ HB1].
    assert (ln_led s1 = ln_led s /\ (forall b x, dep_of s1 b x = dep_of s b x)) as [EL ED] by (apply accrue_mkts in E as [X ->]; auto).
    assert (vouchers s1 a w = vouchers s a w) as EV by (unfold vouchers; rewrite ED; reflexivity). rewrite <- EL in *.
    destruct (exrate_prog C s1 a Hi1 HFl HS ltac:(lia) HM) as [Er Hr].
    assert (FDIV <= U128MAX) as HU by (apply Z.leb_le; vm_compute; reflexivity).
    destruct (earned_prog s1 w a (rate_of C s1 a) Hi1 HE ltac:(lia)) as [s2 E2]. assert (core_eq s1 s2) as Hcore by (eapply update_earned_core; eauto).
    assert (exists X, s2 = st_earn s1 X) as [X HX2]. { unfold update_earned in E2. cbn zeta in E2. bstep E2 t Et. injection E2 as <-. eauto. }
    assert (0 <= v) as Hv0. { rewrite Hv. destruct all; [apply (li_dep s (proj1 Hi))|]. apply Z.div_pos; [nia|lia]. }
    destruct (voucher_prog C P s2 w a v) as (s' & x & Hx); try (rewrite HX2; first [exact HD|exact HF|exact HX|exact HS|exact HM|exact Hcash]); auto.
    - eapply linv_core; eauto.
    - rewrite HX2. eapply rinv_same; [|exact R1]. repeat split.
    - rewrite HX2. exact HFl.
    - rewrite HX2. unfold is_collateral in *. change (d_col (dep_of s1 a w) = false). rewrite ED. exact Hc.
    - rewrite HX2. change (0 <= backing C s1 a < supply_of s1 a). lia.
    - rewrite HX2. change (0 <= v <= vouchers s1 a w). lia.
    - exists s', x. destruct all; unfold do_redeem_all, do_redeem; rewrite (active_prog s a mk Hm HA); cbn [rbind]; rewrite E; cbn [rbind]; rewrite Er; cbn [rbind]; rewrite E2; cbn [rbind].
      + rewrite <- Hx, Hv. f_equal. rewrite HX2, <- EV. reflexivity.
      + unfold to_voucher, f_checked_div. replace (rate_of C s1 a =? 0) with false by lia. rewrite <- Hv. pose proof (li_dep s (proj1 Hi) a w). rewrite chk_ok by lia. cbn [ok_or rbind]. exact Hx.
  Qed.

  (** *** claims *)
  Fixpoint lsum (f : Z -> Z) (l : list Z) : Z := match l with [] => 0 | a :: l' => f a + lsum f l' end.
  Lemma msum_keys {V} (f : Z -> Z) (m : gmap Z V) : msum (fun a _ => f a) m = lsum f (map fst (map_to_list m)).
  Proof. unfold msum, map_fold. cbn. induction (map_to_list m) as [|[k v] l IH]; cbn; [reflexivity|]. rewrite IH. reflexivity. Qed.
  Lemma lsum_ext f g l : (forall a, a ∈ l -> f a = g a) -> lsum f l = lsum g l.
  Proof. induction l as [|a l IH]; cbn; intros H; [reflexivity|]. rewrite H by (left; auto). rewrite IH; [reflexivity|]. intros b Hb. apply H. right; auto. Qed.
  Lemma lsum_zero f l : (forall a, a ∈ l -> f a = 0) -> lsum f l = 0.
  Proof. induction l as [|a l IH]; cbn; intros H; [reflexivity|]. rewrite H by (left; auto). rewrite IH; [reflexivity|]. intros b Hb. apply H. right; auto. Qed.
  Lemma collect_all_exact w l : NoDup l -> forall s s', linv s -> rinv s -> (forall a, a ∈ l -> index_of s a <> 0) -> collect_all s w l = Ok s' ->
    racc_of s' w = racc_of s w + lsum (fun a => earned_in s a w) l /\ (forall x, x <> w -> racc_of s' x = racc_of s x) /\
    (forall a, a ∈ l -> earned_in s' a w = 0) /\ (forall a, a ∉ l -> earned_in s' a w = earned_in s a w) /\ (forall a x, x <> w -> earned_in s' a x = earned_in s a x) /\
    linv s' /\ rinv s' /\ core_eq s s'.
  Proof.
    induction l as [|a l IH]; intros ND s s' Hi R Hx H; cbn [collect_all] in H.
    - injection H as <-. cbn. rewrite Z.add_0_r. split; [auto|]. split; [auto|]. split; [intros b Hb; inversion Hb|]. do 2 (split; [auto|]). split; [exact Hi|]. split; [exact R|]. apply core_refl.
    - apply NoDup_cons in ND as [Hn ND]. bstep H s1 E. destruct (collect_exact s a w s1 Hi R (Hx a ltac:(left; auto)) E) as (A1 & A2 & A3 & A4 & A5 & Hi1 & R1 & Hc & A6).
      destruct (IH ND s1 s' Hi1 R1) as (B1 & B2 & B3 & B4 & B5 & Hi2 & R2 & Hc2); [|exact H|].
      { intros b Hb. assert (index_of s1 b = index_of s b) as -> by (destruct Hc as (?&?&?&?&?&->); reflexivity). apply Hx. right; auto. }
      split; [|split; [|split; [|split; [|split; [|split; [|split]]]]]]; auto.
      + rewrite B1, A1. cbn. rewrite (lsum_ext (fun b => earned_in s1 b w) (fun b => earned_in s b w)); [lia|]. intros b Hb. apply A4. intros ->. auto.
      + intros x Hne. rewrite B2, A2 by auto. reflexivity.
      + intros b Hb. destruct (decide (b ∈ l)) as [Hin|Hin]; [auto|]. apply elem_of_cons in Hb as [->|Hb]; [|tauto]. rewrite B4 by auto. exact A3.
      + intros b Hb. apply not_elem_of_cons in Hb as [Hne Hb]. rewrite B4 by auto. apply A4; auto.
      + intros b x Hne. rewrite B5 by auto. destruct (Z.eq_dec b a) as [->|Hba]; auto.
      + eapply core_trans; eauto.
  Qed.
  Lemma pay_exact s w s' : linv s -> rinv s -> pay_reward C P s w = Ok s' ->
    (if decide (racc_of s w = 0) then ln_led s' = ln_led s else transfer P (ln_led s) (rew_asset C) (rew_acct C) w (racc_of s w) true = Ok (ln_led s')) /\
    racc_of s' w = 0 /\ (forall x, x <> w -> racc_of s' x = racc_of s x) /\ (forall a x, earned_in s' a x = earned_in s a x) /\ ln_mkts s' = ln_mkts s.
  Proof.
    intros Hi R H. pose proof (ri_racc s R w) as [K0 K1]. unfold pay_reward in H. destruct (0 <? racc_of s w) eqn:E.
    - bstep H L EL. injection H as <-. destruct (decide _); [lia|]. split; [exact EL|]. split; [unfold racc_of; cbn; rewrite lookup_delete; reflexivity|]. split; [|split; [reflexivity|reflexivity]].
      intros x Hne. unfold racc_of. cbn. rewrite lookup_delete_ne by auto. reflexivity.
    - injection H as <-. destruct (decide _); [|lia]. split; [reflexivity|]. auto.
  Qed.
  Lemma mkt_index s a mk : linv s -> ln_mkts s !! a = Some mk -> index_of s a <> 0.
  Proof. intros Hi H. destruct (li_mkt s (proj1 Hi) a mk H) as [_ HX]. pose proof FDIV_pos. lia. Qed.
  Lemma keys_in {V} (m : gmap Z V) a : a ∈ map fst (map_to_list m) <-> is_Some (m !! a).
  Proof.
    split.
    - intros H. apply elem_of_list_fmap in H as ([b v] & -> & H). apply elem_of_map_to_list in H. cbn. eauto.
    - intros [v H]. apply elem_of_list_fmap. exists (a, v). split; [reflexivity|]. apply elem_of_map_to_list. exact H.
  Qed.
  Lemma claim_exact s w s' : linv s -> rinv s -> claim_reward C P s w = Ok s' ->
    (if decide (claimable s w = 0) then ln_led s' = ln_led s else transfer P (ln_led s) (rew_asset C) (rew_acct C) w (claimable s w) true = Ok (ln_led s')) /\
    claimable s' w = 0 /\ (forall x, x <> w -> claimable s' x = claimable s x).
  Proof.
    intros Hi R H. unfold claim_reward in H. bstep H s1 E. destruct (collect_all_exact w _ (NoDup_fst_map_to_list (ln_mkts s)) s s1 Hi R) as (B1 & B2 & B3 & B4 & B5 & Hi1 & R1 & Hc); [|exact E|].
    { intros a Ha. apply (keys_in (ln_mkts s)) in Ha as [mk Ha]. eapply mkt_index; eauto. }
    destruct (pay_exact s1 w s' Hi1 R1 H) as (Q1 & Q2 & Q3 & Q4 & Q5).
    assert (ln_led s1 = ln_led s /\ ln_mkts s1 = ln_mkts s) as [EL EM] by (destruct Hc as (?&?&?&?&?&->); auto).
    assert (racc_of s1 w = claimable s w) as EC by (unfold claimable; rewrite msum_keys; exact B1). rewrite EC, EL in Q1. split; [exact Q1|]. split.
    - unfold claimable. rewrite Q2, Q5, EM, (msum_keys (fun a => earned_in s' a w)). rewrite lsum_zero; [reflexivity|]. intros a Ha. rewrite Q4. auto.
    - intros x Hne. unfold claimable. rewrite Q3, B2, Q5, EM by auto. f_equal. apply msum_ext. intros a mk _. rewrite Q4, B5 by auto. reflexivity.
  Qed.
  Lemma claim_for_exact s w a s' mk : linv s -> rinv s -> ln_mkts s !! a = Some mk -> claim_reward_for C P s w a = Ok s' ->
    (if decide (claimable_in s a w = 0) then ln_led s' = ln_led s else transfer P (ln_led s) (rew_asset C) (rew_acct C) w (claimable_in s a w) true = Ok (ln_led s')) /\
    claimable_in s' a w = 0 /\ (forall b, b <> a -> earned_in s' b w = earned_in s b w) /\ (forall x, x <> w -> claimable s' x = claimable s x).
  Proof.
    intros Hi R Hm H. unfold claim_reward_for in H. bstep H s1 E. destruct (collect_exact s a w s1 Hi R (mkt_index s a mk Hi Hm) E) as (A1 & A2 & A3 & A4 & A5 & Hi1 & R1 & Hc & A6).
    destruct (pay_exact s1 w s' Hi1 R1 H) as (Q1 & Q2 & Q3 & Q4 & Q5).
    assert (ln_led s1 = ln_led s /\ ln_mkts s1 = ln_mkts s) as [EL EM] by (destruct Hc as (?&?&?&?&?&->); auto). rewrite A1, EL in Q1. split; [exact Q1|].
    split; [unfold claimable_in; rewrite Q2, Q4, A3; reflexivity|]. split; [intros b Hne; rewrite Q4; apply A4; auto|].
    intros x Hne. unfold claimable. rewrite Q3, A2, Q5, EM by auto. f_equal. apply msum_ext. intros b m _. rewrite Q4. destruct (Z.eq_dec b a) as [->|Hba]; auto.
  Qed.

  (** *** a market without price *)
  Lemma unpriced_liquidity s b mk w x : ln_mkts s !! b = Some mk -> mk_state mk = Active -> ln_price s !! b = None -> account_liquidity C s w <> Ok x.
  Proof.
    intros Hm HA Hp H. unfold account_liquidity in H. bstep H B EB. bstep H Co EC. unfold total_collateral in EC. destruct (sum_values_in _ _ _ _ b EC (actives_in s b mk Hm HA)) as [v Hx].
    unfold collateral_value in Hx. bstep Hx y Ey. unfold asset_value, get_price in Hx. rewrite Hp in Hx. discriminate Hx.
  Qed.
  Lemma unpriced_total s b mk w x : ln_mkts s !! b = Some mk -> mk_state mk = Active -> ln_price s !! b = None -> total_collateral C s w <> Ok x.
  Proof.
    intros Hm HA Hp EC. unfold total_collateral in EC. destruct (sum_values_in _ _ _ _ b EC (actives_in s b mk Hm HA)) as [v Hx].
    unfold collateral_value in Hx. bstep Hx y Ey. unfold asset_value, get_price in Hx. rewrite Hp in Hx. discriminate Hx.
  Qed.
  Lemma exec_unpriced s c s' b mk w : linv s -> ln_mkts s !! b = Some mk -> mk_state mk = Active -> ln_price s !! b = None -> loans_exec C P s c = Ok s' ->
    relies_on_collateral s c w -> exists liq la amt ca, c = LLiquidate liq w la amt ca.
  Proof.
    intros Hi Hm HA Hp H Hr.
    assert (HL : forall t y, ln_mkts t = ln_mkts s -> ln_price t = ln_price s -> account_liquidity C t w <> Ok y) by (intros t y E1 E2; apply (unpriced_liquidity t b mk); rewrite ?E1, ?E2; auto).
    assert (HR : forall a sel x, is_collateral s a w = true -> redeem_all_eff C P s w a sel s' x -> False).
    { intros a sel x Hc (mk' & s1 & s2 & r & Hm' & _ & Hacc & Hrr & Hcore & HH). apply accrue_mkts in Hacc as [X ->]. destruct Hcore as (R0 & E0 & X0 & Y0 & Z0 & ->).
      destruct HH as (R & E & X1 & Y & Z & r' & L & _ & _ & _ & _ & _ & _ & _ & _ & HQ & _). destruct (HQ Hc) as (mk2 & val & _ & _ & HE). unfold ensure_liquidity in HE. bstep HE q Eq.
      eapply (HL (aux (st_acc s X) R0 E0 X0 Y0 Z0)); eauto. }
    destruct c; cbn [relies_on_collateral loans_exec] in H, Hr; try (destruct Hr; fail).
    - destruct Hr as [-> Hc]. apply fst_res_ok in H as [x H]. unfold redeem in H. bstep H u0 E0. apply do_redeem_eff in H. exfalso; eapply HR; eauto.
    - destruct Hr as [-> Hc]. apply fst_res_ok in H as [x H]. apply do_redeem_eff in H. exfalso; eapply HR; eauto.
    - destruct Hr as [-> Hc]. apply fst_res_ok in H as [x H]. apply do_redeem_all_eff in H. exfalso; eapply HR; eauto.
    - subst w0. apply do_borrow_eff in H as (mk' & s1 & R & E & X & Y & Z & b' & val & L & Hm' & _ & Hacc & Hcap & Hcash & Hval & Hliq & _). apply accrue_mkts in Hacc as [X1 ->].
      unfold ensure_liquidity in Hliq. bstep Hliq q Eq. exfalso. eapply (HL (st_acc s X1)); eauto.
    - destruct Hr as [-> ->]. unfold collateral_asset in H. bstep H u0 E0. bstep H d E1. bstep H u1 E2. apply do_collateral_eff in H as (mk' & d' & _ & _ & Hd & -> & HQ).
      destruct (HQ eq_refl) as (Co & cv & B & HT & _). exfalso. eapply (unpriced_total s b mk); eauto.
    - destruct Hr as [-> ->]. apply do_collateral_eff in H as (mk' & d' & _ & _ & Hd & -> & HQ).
      destruct (HQ eq_refl) as (Co & cv & B & HT & _). exfalso. eapply (unpriced_total s b mk); eauto.
    - subst w0. eauto.
    - destruct Hr as [-> Hc]. apply fst_res_ok in H as [x H]. unfold force_redeem, redeem in H. bstep H u0 E0. bstep H u1 E1. apply do_redeem_eff in H. exfalso; eapply HR; eauto.
    - destruct Hr as [-> Hc]. apply fst_res_ok in H as [x H]. unfold force_redeem_all in H. bstep H u0 E0. apply do_redeem_all_eff in H. exfalso; eapply HR; eauto.
  Qed.
End live2.
