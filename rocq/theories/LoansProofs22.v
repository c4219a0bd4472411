(** * LoansProofs22: voucher transfers and reserves, exact effects and progress. *)
From Verif Require Import Base MapSum Ledger AmmModel AmmProofs5 LoansModel LoansSpec LoansSpec2 LoansProofs LoansProofs2 LoansProofs3 LoansProofs4 LoansProofs5
  LoansProofs8 LoansProofs12 LoansProofs13 LoansProofs14 LoansProofs15 LoansProofs16 LoansProofs17 LoansProofs18 LoansProofs19 LoansProofs20 LoansProofs21.

Section vt.
  Context (C : loans_cfg) (P : policy).

  Lemma two_vouchers s a w x : linv s -> w <> x -> vouchers s a w + vouchers s a x <= supply_of s a.
  Proof.
    intros Hi Hne. pose proof (reach_supply_ge s a w Hi) as S1. pose proof (reach_supply_ge s a x Hi) as S2. pose proof (li_dep s (proj1 Hi)) as Hd. destruct Hi as [Hi Hs]. specialize (Hs a). rewrite <- Hs in *.
    unfold voucher_sum, vouchers, dep_of in *. destruct (ln_deps s !! (a, w)) as [d|] eqn:E1; [|cbn; cbn in S1; lia].
    destruct (ln_deps s !! (a, x)) as [e|] eqn:E2; [|cbn; cbn in S1; lia].
    pose proof (msum_ge_elem2 (fun k d => if bool_decide (k.1 = a) then d_v d else 0) (ln_deps s) (a, w) d (a, x) e) as M.
    cbn in M. rewrite !bool_decide_true in M by reflexivity. cbn. apply M; auto; [|congruence].
    intros [b y] v Hv. cbn. case_bool_decide; [|lia]. pose proof (Hd b y) as Q. unfold vouchers, dep_of in Q. rewrite Hv in Q. apply Q.
  Qed.
  Lemma dist_zero s a w : rinv s -> r_si (rew_of s a) <= U128MAX -> vouchers s a w = 0 -> exists s', dist_supplier s a w = Ok s'.
  Proof.
    intros R HU HV. unfold dist_supplier. cbn zeta. fold (vouchers s a w). rewrite HV. pose proof (ri_six s R a w). pose proof (ri_racc s R w).
    unfold checked_sub. rewrite chk_ok by lia. cbn [ok_or rbind]. unfold reward_delta. replace (0 * _ / RSCALE) with 0 by (rewrite Z.mul_0_l, Z.div_0_l by (pose proof RSCALE_pos; lia); reflexivity).
    rewrite chk_ok by (pose proof U128MAX_pos; lia). cbn [ok_or rbind]. unfold checked_add. rewrite chk_ok by lia. cbn. eauto.
  Qed.
  Lemma vt_prog s pt u src dst amt : linv s -> rinv s -> in_markets s -> ln_mkts s !! pt = None -> r_si (rew_of s pt) <= U128MAX ->
    ln_under s !! pt = Some u -> is_collateral s u src = false -> 0 <= amt <= vouchers s u src -> exists s', transfer_pt C s pt src dst amt = Ok s'.
  Proof.
    intros Hi R V Hn HX Hu Hc Ha.
    assert (S0 : supply_of s pt = 0).
    { destruct Hi as [Hi Hs]. rewrite <- Hs. apply msum_zero. intros [b y] d Hd. cbn. case_bool_decide; [|reflexivity]. subst b. pose proof (V pt y Hn) as Q. unfold vouchers, dep_of in Q. rewrite Hd in Q. exact Q. }
    unfold transfer_pt. unfold reducible_pt, reducible_asset, underlying. rewrite Hu. cbn [ok_or rbind]. fold (is_collateral s u src). rewrite Hc. cbn [negb rbind].
    fold (vouchers s u src). replace (amt <=? vouchers s u src) with true by lia. cbn [ensure rbind].
    destruct (upd_s_prog s pt Hi R) as [s1 E1]. { unfold supply_index_now. cbn zeta. rewrite S0. rewrite orb_true_r. lia. }
    rewrite E1. cbn [rbind].
    assert (R1 : rinv s1). { eapply rinv_upd_s; [|exact R|exact E1]. pose proof (ri_block s R pt). lia. }
    assert (X1 : r_si (rew_of s1 pt) <= U128MAX).
    { unfold upd_supply_index in E1. cbn zeta in E1. destruct (_ =? 0); [injection E1 as <-; exact HX|]. bstep E1 i Ei. injection E1 as <-. rewrite rew_of_put, decide_True by auto. cbn.
      destruct (_ =? 0); [injection Ei as <-; exact HX|]. fold (supply_of s pt) in Ei. rewrite S0 in Ei. unfold delta_index in Ei. cbn [Z.eqb rbind] in Ei. apply ok_or_ok in Ei. apply chk_some in Ei. lia. }
    pose proof (upd_supply_index_core _ _ _ E1) as K1.
    assert (V1 : forall w, vouchers s1 pt w = 0). { intros w. destruct K1 as (?&?&?&?&?&->). exact (V pt w Hn). }
    destruct (dist_zero s1 pt src R1 X1 (V1 src)) as [s2 E2]. rewrite E2. cbn [rbind]. pose proof (dist_supplier_core _ _ _ _ E2) as K2. pose proof (rinv_dist_s _ _ _ _ R1 E2) as R2.
    assert (X2 : r_si (rew_of s2 pt) <= U128MAX). { unfold dist_supplier in E2. bstep E2 d D1. bstep E2 x D2. bstep E2 t D3. injection E2 as <-. exact X1. }
    assert (V2 : forall w, vouchers s2 pt w = 0). { intros w. destruct K2 as (?&?&?&?&?&->). exact (V1 w). }
    destruct (dist_zero s2 pt dst R2 X2 (V2 dst)) as [s3 E3]. rewrite E3. cbn [rbind]. pose proof (dist_supplier_core _ _ _ _ E3) as K3.
    pose proof (core_trans _ _ _ (core_trans _ _ _ K1 K2) K3) as (W1 & W2 & W3 & W4 & W5 & ->). cbn [ln_under aux]. rewrite Hu. cbn [ok_or rbind].
    change (dep_of (aux s W1 W2 W3 W4 W5) u src) with (dep_of s u src). change (d_v (dep_of s u src)) with (vouchers s u src). pose proof (li_dep s (proj1 Hi) u src) as [D0 D1].
    unfold checked_sub. rewrite chk_ok by (unfold vouchers in *; lia). cbn [ok_or rbind].
    assert (Hsum : 0 <= vouchers (put_dep_or_remove (aux s W1 W2 W3 W4 W5) u src (mkDep (vouchers s u src - amt) (is_collateral s u src))) u dst + amt <= U128MAX).
    { pose proof (li_dep s (proj1 Hi) u dst) as [F0 F1]. unfold vouchers. rewrite dep_of_put_rm. cbn [d_v]. destruct (decide _) as [Hd|Hd].
      - fold (vouchers s u src). unfold vouchers in *. destruct (_ =? 0) eqn:Ez; cbn [d_v dep0]; lia.
      - change (dep_of (aux s W1 W2 W3 W4 W5) u dst) with (dep_of s u dst). pose proof (two_vouchers s u src dst Hi ltac:(congruence)) as T. destruct (li_acc s (proj1 Hi) u) as ((_ & U1) & _). unfold vouchers in *. lia. }
    unfold checked_add, vouchers, is_collateral in *. rewrite chk_ok by exact Hsum. cbn. eauto.
  Qed.
End vt.
