(** * LoansProofs17: collateral in a market whose exchange rate has reached 1 blocks its owner's account. *)
From Verif Require Import Base MapSum Ledger AmmModel LoansModel LoansSpec LoansSpec2 LoansProofs LoansProofs2 LoansProofs3 LoansProofs4 LoansProofs5 LoansProofs7 LoansProofs13.

Section trap.
  Context (C : loans_cfg) (P : policy).

  Lemma sum_values_in f l acc t a : sum_values f l acc = Ok t -> a ∈ l -> exists v, f a = Ok v.
  Proof.
    revert acc. induction l as [|b l IH]; cbn; intros acc H Hin; [inversion Hin|]. bstep H v Ev. bstep H x Ex.
    apply elem_of_cons in Hin as [->|Hin]; eauto.
  Qed.
  Lemma actives_in s a mk : ln_mkts s !! a = Some mk -> mk_state mk = Active -> a ∈ actives s.
  Proof.
    intros H HA. unfold actives. apply elem_of_list_fmap. exists (a, mk). split; [reflexivity|]. apply elem_of_list_In. apply filter_In. split.
    - apply elem_of_list_In, elem_of_map_to_list. exact H.
    - unfold is_active. cbn. apply bool_decide_true. exact HA.
  Qed.
  Lemma locked_amount s a w f x : locked C s a w -> collateral_amount C f s w a <> Ok x.
  Proof.
    intros ((mk & Hm & HA) & F & d & Hd & Hc & Hv) H. unfold collateral_amount in H. rewrite Hd, Hc in H. cbn [negb] in H.
    destruct (d_v d =? 0) eqn:E; [lia|]. bstep H r Er. eapply frozen_exrate; eauto.
  Qed.
  Lemma locked_threshold s a w x : locked C s a w -> threshold_liquidity C s w <> Ok x.
  Proof.
    intros HL H. pose proof HL as ((mk & Hm & HA) & F & d & Hd & Hc & Hv). unfold threshold_liquidity in H. bstep H B EB. bstep H Co EC. unfold total_threshold in EC.
    destruct (sum_values_in _ _ _ _ a EC (actives_in s a mk Hm HA)) as [v Hx]. unfold threshold_value in Hx. rewrite Hd, Hc in Hx. cbn [negb] in Hx.
    destruct (d_v d =? 0) eqn:E; [lia|]. bstep Hx y Ey. eapply locked_amount; eauto.
  Qed.
  Lemma locked_total s a w x : locked C s a w -> total_collateral C s w <> Ok x.
  Proof.
    intros HL H. pose proof HL as ((mk & Hm & HA) & F & d & Hd & Hc & Hv). unfold total_collateral in H.
    destruct (sum_values_in _ _ _ _ a H (actives_in s a mk Hm HA)) as [v Hx]. unfold collateral_value in Hx. bstep Hx y Ey. eapply locked_amount; eauto.
  Qed.
  Lemma locked_liquidity s a w x : locked C s a w -> account_liquidity C s w <> Ok x.
  Proof. intros HL H. unfold account_liquidity in H. bstep H B EB. bstep H Co EC. eapply locked_total; eauto. Qed.
  Lemma locked_ensure s a w v b x : locked C s a w -> ensure_liquidity C s w v b <> Ok x.
  Proof. intros HL H. unfold ensure_liquidity in H. bstep H q Eq. eapply locked_liquidity; eauto. Qed.

  Lemma locked_core s s' a w : core_eq s s' -> locked C s a w -> locked C s' a w.
  Proof. intros (R & E & X & Y & Z & ->) H. exact H. Qed.
  Lemma locked_accrue s b s1 a w : linv s -> locked C s a w -> accrue C s b = Ok s1 -> locked C s1 a w.
  Proof.
    intros Hi (Hm & F & Hd) H. split; [|split].
    - destruct Hm as (mk & Hm & HA). exists mk. split; [|auto]. apply accrue_full in H as (X & -> & _); [exact Hm|apply Hi].
    - eapply frozen_grow; [eapply accrue_grow; [apply Hi|exact H]|exact F].
    - destruct Hd as (d & Hd & Hc). exists d. split; [|auto]. apply accrue_full in H as (X & -> & _); [exact Hd|apply Hi].
  Qed.
  Lemma redeem_locked s w b sel s' x a : linv s -> locked C s a w -> is_collateral s b w = true -> redeem_all_eff C P s w b sel s' x -> False.
  Proof.
    intros Hi HL Hc (mk & s1 & s2 & r & Hm & _ & Hacc & Hr & Hcore & H). pose proof (locked_accrue s b s1 a w Hi HL Hacc) as H1.
    assert (is_collateral s1 b w = true) as Hc1 by (apply accrue_full in Hacc as (X & -> & _); [exact Hc|apply Hi]).
    pose proof (locked_core s1 s2 a w Hcore H1) as H2. assert (is_collateral s2 b w = true) as Hc2 by (destruct Hcore as (?&?&?&?&?&->); exact Hc1).
    destruct H as (R & E & X & Y & Z & r' & L & _ & _ & _ & _ & _ & _ & _ & _ & HQ & _). destruct (HQ Hc2) as (mk' & val & _ & _ & HE). eapply locked_ensure; eauto.
  Qed.
  Lemma exec_locked s c s' a w : linv s -> locked C s a w -> loans_exec C P s c = Ok s' -> ~ relies_on_collateral s c w.
  Proof.
    intros Hi HL H. destruct c; cbn [relies_on_collateral loans_exec] in H |- *; try (intros []; fail).
    - intros [-> Hc]. apply fst_res_ok in H as [x H]. unfold redeem in H. bstep H u0 E0. apply do_redeem_eff in H. eapply redeem_locked; eauto.
    - intros [-> Hc]. apply fst_res_ok in H as [x H]. apply do_redeem_eff in H. eapply redeem_locked; eauto.
    - intros [-> Hc]. apply fst_res_ok in H as [x H]. apply do_redeem_all_eff in H. eapply redeem_locked; eauto.
    - intros ->. apply do_borrow_eff in H as (mk & s1 & R & E & X & Y & Z & b & val & L & Hm & _ & Hacc & Hcap & Hcash & Hval & Hliq & _).
      eapply locked_ensure; [eapply locked_accrue; eauto|exact Hliq].
    - intros [-> ->]. unfold collateral_asset in H. bstep H u0 E0. bstep H d E1. bstep H u1 E2. apply do_collateral_eff in H as (mk & d' & _ & _ & Hd & -> & HQ).
      destruct (HQ eq_refl) as (Co & cv & B & HT & _). eapply locked_total; eauto.
    - intros [-> ->]. apply do_collateral_eff in H as (mk & d' & _ & _ & Hd & -> & HQ).
      destruct (HQ eq_refl) as (Co & cv & B & HT & _). eapply locked_total; eauto.
    - intros ->. unfold liquidate in H. bstep H u0 E0. bstep H s1 E1. bstep H s2 E2. pose proof (accrue_linv C _ _ _ Hi E1) as Hi1.
      pose proof (locked_accrue s la s1 a w Hi HL E1) as HL1. pose proof (locked_accrue s1 ca s2 a w Hi1 HL1 E2) as HL2.
      unfold do_liquidate in H. bstep H m1 F1. bstep H m2 F2. bstep H mk F3. bstep H v0 F4. bstep H v1 F5. unfold liquidate_allowed in F5. bstep F5 q Eq. eapply locked_threshold; eauto.
    - intros [-> Hc]. apply fst_res_ok in H as [x H]. unfold force_redeem, redeem in H. bstep H u0 E0. bstep H u1 E1. apply do_redeem_eff in H. eapply redeem_locked; eauto.
    - intros [-> Hc]. apply fst_res_ok in H as [x H]. unfold force_redeem_all in H. bstep H u0 E0. apply do_redeem_all_eff in H. eapply redeem_locked; eauto.
  Qed.
End trap.
