(** * LoansProofs25: the health query answers. *)
From Verif Require Import Base MapSum Ledger AmmModel AmmProofs5 LoansModel LoansSpec LoansSpec2 LoansSpec3 LoansProofs LoansProofs2 LoansProofs3 LoansProofs4 LoansProofs5
  LoansProofs8 LoansProofs9 LoansProofs10 LoansProofs12 LoansProofs13 LoansProofs14 LoansProofs15 LoansProofs16 LoansProofs17 LoansProofs18 LoansProofs19 LoansProofs20 LoansProofs21 LoansProofs22 LoansProofs23 LoansProofs24.

Section hq.
  Context (C : loans_cfg).
  Fixpoint fsum {V} (g : Z -> V -> Z) (l : list (Z * V)) : Z := match l with [] => 0 | x :: l' => g x.1 x.2 + fsum g l' end.
  Lemma msum_fsum {V} (g : Z -> V -> Z) (m : gmap Z V) : msum g m = fsum g (map_to_list m).
  Proof. unfold msum, map_fold. cbn. induction (map_to_list m) as [|[k v] l IH]; cbn; [reflexivity|]. rewrite IH. reflexivity. Qed.
  Lemma fsum_filter {V} (p : Z * V -> bool) (g : Z -> V -> Z) l : fsum (fun a v => if p (a, v) then g a v else 0) l = fsum g (List.filter p l).
  Proof. induction l as [|[k v] l IH]; cbn; [reflexivity|]. destruct (p (k, v)); cbn; lia. Qed.
  Lemma sum_prog {V} (f : Z -> res Z) (g : Z -> V -> Z) l : (forall x, In x l -> 0 <= g x.1 x.2 /\ (g x.1 x.2 <= U128MAX -> f x.1 = Ok (g x.1 x.2))) ->
    forall acc, 0 <= acc -> acc + fsum g l <= U128MAX -> exists t, sum_values f (map fst l) acc = Ok t.
  Proof.
    induction l as [|x l IH]; cbn [map sum_values fsum]; intros H acc Ha Hs; [eauto|].
    assert (0 <= fsum g l). { clear -H. induction l as [|y l IH]; cbn; [lia|]. destruct (H y) as [? _]; [right; left; auto|]. assert (0 <= fsum g l); [apply IH; intros z [->|Hz]; apply H; [left|right; right]; auto|lia]. }
    destruct (H x) as [G0 G1]; [left; auto|]. rewrite G1 by lia. cbn [rbind]. unfold checked_add. rewrite chk_ok by lia. cbn [ok_or rbind]. apply IH; [intros y Hy; apply H; right; auto|lia|lia].
  Qed.
  Lemma active_sum s (q : Z -> bool) f (g : asset -> market -> Z) :
    (forall a mk, ln_mkts s !! a = Some mk -> mk_state mk = Active -> 0 <= g a mk /\ (g a mk <= U128MAX -> f a = Ok (g a mk))) ->
    over_active s g <= U128MAX -> (exists t, sum_values f (actives s) 0 = Ok t) /\ (exists t, sum_values f (List.filter q (actives s)) 0 = Ok t).
  Proof.
    intros H HS. assert (HA : forall x, In x (active_list s) -> 0 <= g x.1 x.2 /\ (g x.1 x.2 <= U128MAX -> f x.1 = Ok (g x.1 x.2))).
    { intros [a mk] Hx. unfold active_list in Hx. apply List.filter_In in Hx as [Hx Hp]. apply elem_of_list_In, elem_of_map_to_list in Hx. unfold is_active in Hp. cbn in Hp. apply bool_decide_eq_true in Hp. cbn. auto. }
    assert (HF : fsum g (active_list s) = over_active s g).
    { unfold over_active. rewrite msum_fsum. unfold active_list. rewrite <- fsum_filter. unfold is_active. reflexivity. }
    split; [apply (sum_prog f g); auto; lia|]. unfold actives. rewrite filter_fst_comm. apply (sum_prog f g); [|lia|].
    - intros x Hx. apply List.filter_In in Hx as [Hx _]. auto.
    - rewrite <- HF in HS. clear HF. assert (fsum g (List.filter (fun x => q x.1) (active_list s)) <= fsum g (active_list s)); [|lia]. clear HS. revert HA. generalize (active_list s) as l.
      induction l as [|x l IH]; cbn; intros HA; [lia|]. destruct (HA x) as [H0 _]; [left; auto|]. assert (fsum g (List.filter (fun x => q x.1) l) <= fsum g l) by (apply IH; intros y Hy; apply HA; right; auto).
      destruct (q x.1); cbn; lia.
  Qed.
  Lemma debt_nn s a w : linv s -> 0 <= debt_now s a w.
  Proof.
    intros Hi. unfold debt_now. cbn zeta. destruct (_ =? 0) eqn:Eb; [lia|]. destruct (li_debt s (proj1 Hi) a w) as ((Q0 & Q1) & (I0 & I1) & I2). destruct (li_acc s (proj1 Hi) a) as (_ & _ & _ & (HI & _)). pose proof FDIV_pos. apply Z.div_pos; [|lia]. apply Z.mul_nonneg_nonneg; [apply Z.div_pos; nia|lia].
  Qed.
  Lemma borrowed_answers s w : linv s -> quotable C s w -> exists B, total_borrowed s w = Ok B.
  Proof.
    intros Hi (HQ & _ & _ & _ & HB). destruct (active_sum s (fun _ => true) (debt_value s w) (fun a _ => value_of s a (debt_now s a w))) as [H _]; [|exact HB|exact H].
    intros a mk Hm HA. destruct (HQ a mk Hm HA) as (Hp & HD & _). pose proof (debt_nn s a w Hi) as D0. pose proof FDIV_pos. split; [unfold value_of; apply Z.div_pos; nia|]. intros HV.
    unfold debt_value. rewrite (balance_prog s a w Hi HD). cbn [rbind]. destruct (debt_now s a w =? 0) eqn:E; [|apply value_prog; lia]. replace (debt_now s a w) with 0 by lia. rewrite value_0. reflexivity.
  Qed.
  Lemma amount_answers f s w a mk : linv s -> floor_ok C s -> 0 <= backing C s a -> ln_mkts s !! a = Some mk -> mk_state mk = Active -> is_permill (f mk) -> quotable C s w ->
    exists x, 0 <= x /\ collateral_amount C f s w a = Ok x /\ value_of s a x = counts_for C f s w a mk.
  Proof.
    intros Hi HF HB0 Hm HA [Hf0 Hf1] (HQ & _). destruct (HQ a mk Hm HA) as (Hp & HD & Hc). pose proof FDIV_pos as HFD. pose proof PMILL_pos as HPM. unfold collateral_amount, counts_for. pose proof (li_dep s (proj1 Hi) a w) as [V0 V1]. pose proof (voucher_le_supply s a w Hi) as VL.
    unfold is_collateral, vouchers, dep_of in *. destruct (ln_deps s !! (a, w)) as [d|]; cbn in *; [|exists 0; rewrite value_0; auto with lia].
    destruct (d_col d); cbn; [|exists 0; rewrite value_0; auto with lia]. destruct (d_v d =? 0) eqn:E.
    - exists 0. split; [lia|]. split; [reflexivity|]. replace (d_v d) with 0 by lia. rewrite Z.mul_0_r, Z.div_0_l by lia. rewrite p_mul_ceil_0. reflexivity.
    - destruct (Hc eq_refl) as [Hz|[Hb Hm2]]; [lia|]. destruct (exrate_prog C s a Hi HF ltac:(lia) ltac:(lia) Hm2) as [Er Hr]. rewrite Er. cbn [rbind].
      assert (rate_now C s a = rate_of C s a) as -> by (unfold rate_now; replace (supply_of s a =? 0) with false by lia; reflexivity).
      assert (Hu : 0 <= rate_of C s a * d_v d / FDIV <= d_v d). { split; [apply Z.div_pos; nia|]. apply Z.div_le_upper_bound; nia. }
      unfold to_underlying, f_checked_mul_int. rewrite chk_ok by lia. cbn [ok_or rbind]. unfold get_market. rewrite Hm. cbn [ok_or rbind]. eexists. split; [|split; reflexivity].
      unfold p_mul_ceil, cdiv. apply Z.div_pos; [|lia]. assert (0 <= f mk * (rate_of C s a * d_v d / FDIV)) by (apply Z.mul_nonneg_nonneg; lia). lia.
  Qed.
  Lemma collateral_answers s w : linv s -> floor_ok C s -> (forall a, 0 <= backing C s a) -> quotable C s w -> collateral_worth C s w <= U128MAX ->
    (exists B, total_collateral C s w = Ok B) /\ (exists B, lf_base C s w = Ok B).
  Proof.
    intros Hi HF HB Q HS. unfold total_collateral, lf_base, lf_actives. apply (active_sum s (is_lf s) (collateral_value C s w) (counts_for C mk_cf s w)); [|exact HS].
    intros a mk Hm HA. destruct (li_mkt s (proj1 Hi) a mk Hm) as [(T1 & _) _]. destruct (amount_answers mk_cf s w a mk Hi HF (HB a) Hm HA T1 Q) as (x & X0 & X1 & X2). rewrite <- X2.
    destruct Q as (HQ & _). destruct (HQ a mk Hm HA) as (Hp & _). pose proof FDIV_pos. split; [unfold value_of; apply Z.div_pos; nia|]. intros HV. unfold collateral_value. rewrite X1. cbn [rbind]. apply value_prog; lia.
  Qed.
  Lemma threshold_answers s w : linv s -> floor_ok C s -> (forall a, 0 <= backing C s a) -> quotable C s w -> threshold_worth C s w <= U128MAX ->
    (exists B, total_threshold C s w = Ok B) /\ (exists B, lf_threshold C s w = Ok B).
  Proof.
    intros Hi HF HB Q HS. unfold total_threshold, lf_threshold, lf_actives. apply (active_sum s (is_lf s) (threshold_value C s w) (counts_for C mk_lt s w)); [|exact HS].
    intros a mk Hm HA. destruct (li_mkt s (proj1 Hi) a mk Hm) as [(_ & T1 & _) _]. destruct (amount_answers mk_lt s w a mk Hi HF (HB a) Hm HA T1 Q) as (x & X0 & X1 & X2).
    destruct Q as (HQ & _). destruct (HQ a mk Hm HA) as (Hp & _). pose proof FDIV_pos. split; [rewrite <- X2; unfold value_of; apply Z.div_pos; nia|]. intros HV. rewrite <- X2 in HV.
    unfold threshold_value. rewrite X1. unfold collateral_amount in X1. destruct (ln_deps s !! (a, w)) as [d|]; [|injection X1 as <-; rewrite <- X2, value_0; reflexivity].
    destruct (d_col d); cbn [negb] in *; [|injection X1 as <-; rewrite <- X2, value_0; reflexivity]. destruct (d_v d =? 0); [injection X1 as <-; rewrite <- X2, value_0; reflexivity|].
    cbn [rbind]. rewrite <- X2. apply value_prog; lia.
  Qed.
  Lemma lf_borrowed_answers s w : linv s -> quotable C s w -> exists B, lf_borrowed C s w = Ok B.
  Proof.
    intros Hi (_ & Hp & HD & HV & _). unfold lf_borrowed. rewrite (balance_prog s _ w Hi HD). cbn [rbind]. pose proof (debt_nn s (lf_asset C) w Hi). rewrite value_prog; [eauto|lia|lia|exact HV].
  Qed.
  Lemma liquidity_answers s w : linv s -> floor_ok C s -> (forall a, 0 <= backing C s a) -> quotable C s w -> collateral_worth C s w <= U128MAX -> exists q, account_liquidity C s w = Ok q.
  Proof.
    intros Hi HF HB Q HS. destruct (borrowed_answers s w Hi Q) as [B E1]. destruct (collateral_answers s w Hi HF HB Q HS) as [[Co E2] [lC E3]]. destruct (lf_borrowed_answers s w Hi Q) as [lB E4].
    unfold account_liquidity. rewrite E1. cbn [rbind]. rewrite E2. cbn [rbind]. rewrite E4. cbn [rbind]. rewrite E3. cbn [rbind]. eauto.
  Qed.
  Lemma threshold_liquidity_answers s w : linv s -> floor_ok C s -> (forall a, 0 <= backing C s a) -> quotable C s w -> threshold_worth C s w <= U128MAX -> exists q, threshold_liquidity C s w = Ok q.
  Proof.
    intros Hi HF HB Q HS. destruct (borrowed_answers s w Hi Q) as [B E1]. destruct (threshold_answers s w Hi HF HB Q HS) as [[Co E2] [lC E3]]. destruct (lf_borrowed_answers s w Hi Q) as [lB E4].
    unfold threshold_liquidity. rewrite E1. cbn [rbind]. rewrite E2. cbn [rbind]. rewrite E4. cbn [rbind]. rewrite E3. cbn [rbind]. eauto.
  Qed.
End hq.
