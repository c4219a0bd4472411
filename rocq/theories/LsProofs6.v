(** * LsProofs6: the remaining steps as elementary effects, and the invariant of every history. *)
From Verif Require Import Base MapSum Ledger AmmModel LoansModel LoansSpec LoansProofs2 LoansProofs3 LoansProofs4 LoansProofs5 LsModel LsSpec LsProofs LsDist LsProofs2 LsProofs3 LsProofs4 LsProofs5.

Section lsp.
  Context (C : ls_cfg) (E : ls_env) (Q : lst -> ls_call -> Prop).
  Notation P := (e_pol E).
  Notation stkA := (lc_stk C).
  Notation liqA := (lc_liq C).
  Notation colA := (lc_col C).
  Notation me := (lc_acct C).
  Notation lacct := (ln_acct (lc_loans C)).
  Notation leff := (leff C E Q).
  Notation leffs := (leffs C E Q).
  Notation lsi := (lsi C).
  Notation dl := (dl C E).

  Lemma u32max_pos : 0 < U32MAX. Proof. reflexivity. Qed.
  Lemma burn_dl s x L : ls_cfg_ok C -> ledger_wf (ls_led s) -> burn_from P (ls_led s) stkA me x = Ok L -> dl s (st_led (ls_ln s) L) (- x) 0.
  Proof.
    intros HC W H. destruct HC as (C1 & C2 & C3 & C4 & C5 & C6 & _). pose proof (burn_spec _ _ _ _ _ _ H) as (X0 & _ & B & I1). pose proof (burn_wf _ _ _ _ _ _ W H) as W1.
    split; [change (ln_led (st_led (ls_ln s) L)) with L; rewrite B; at_simpl|]. split; [change (ln_led (st_led (ls_ln s) L)) with L; rewrite I1; at_simpl|].
    apply tok_step; [exact W1|]. intros a. fold (ls_led s). rewrite B. at_simpl.
  Qed.
  Lemma mint_dl s x L : ls_cfg_ok C -> ledger_wf (ls_led s) -> mint_into P (ls_led s) stkA me x = Ok L -> dl s (st_led (ls_ln s) L) x 0.
  Proof.
    intros HC W H. destruct HC as (C1 & C2 & C3 & C4 & C5 & C6 & _). pose proof (mint_spec _ _ _ _ _ _ H) as (X0 & B & I1). pose proof (mint_wf _ _ _ _ _ _ W H) as W1.
    split; [change (ln_led (st_led (ls_ln s) L)) with L; rewrite B; at_simpl|]. split; [change (ln_led (st_led (ls_ln s) L)) with L; rewrite I1; at_simpl|].
    apply tok_step; [exact W1|]. intros a. fold (ls_led s). rewrite B. at_simpl.
  Qed.
  Lemma dl_refl s : dl s (ls_ln s) 0 0.
  Proof. split; [unfold ls_led; lia|]. split; [unfold ls_led; lia|constructor]. Qed.
  Lemma burn_staked_ok s x s' : burn_staked C E s x = Ok s' -> exists L, burn_from P (ls_led s) stkA me x = Ok L /\ s' = put_led s L.
  Proof. unfold burn_staked. intros H. bstep H a Ea. apply stk_ok in Ea as ->. bstep H L EL. injection H as <-. eauto. Qed.
  Lemma update_ledger_ok s i f s' : update_ledger s i f = Ok s' -> exists l l', ls_leds s !! i = Some l /\ f l = Ok l' /\ s' = st_ls_upd (st_ls_leds s (<[i := l']> (ls_leds s))) (<[i := true]> (ls_upd s)).
  Proof. unfold update_ledger. intros H. bstep H l El. bstep H l' El'. injection H as <-. eauto. Qed.

  Lemma notify_leffs s resp o q r s' : ls_cfg_ok C -> lsi s -> Q s (KNotify resp o q r) -> notification C E s resp o q r = Ok s' -> leffs s s'.
  Proof.
    intros HC I HQ H. unfold notification in H. bstep H u Eo. destruct r as [ok|]; [|injection H as <-; constructor].
    destruct (ls_reqs s !! q) as [req|] eqn:Eq; [|injection H as <-; constructor]. destruct ok; cbn [negb] in H; [|injection H as <-; constructor].
    bstep H s1 E1. injection H as <-. apply leffs_one. pose proof (wf_of C s I) as W.
    destruct req as [i x|i x|i x|i x|i x|i x]; cbn [executed] in E1.
    - bstep E1 u1 En. bstep E1 p Ep. apply burn_staked_ok in E1 as (L & EL & ->).
      apply bool_decide_eq_false in En || apply negb_true_iff, bool_decide_eq_false in En. assert (Hn : ls_leds s !! i = None) by (destruct (ls_leds s !! i); [exfalso; apply En; eauto|reflexivity]).
      exact (F_bond C E Q s resp o q i x p _ HQ Eq Hn Ep (burn_dl s x L HC W EL)).
    - bstep E1 s2 Eu. apply update_ledger_ok in Eu as (l & l' & H1 & H2 & ->). bstep E1 p Ep. apply burn_staked_ok in E1 as (L & EL & ->).
      exact (F_upd C E Q s resp o q _ i l l' p (- x) _ HQ Eq H1 (conj eq_refl (conj H2 (conj Ep eq_refl))) (burn_dl s x L HC W EL)).
    - bstep E1 era Ee. apply raw_add32_ok in Ee as [-> _]. bstep E1 s2 Eu. apply update_ledger_ok in Eu as (l & l' & H1 & H2 & ->). bstep E1 p Ep. injection E1 as <-.
      exact (F_upd C E Q s resp o q _ i l l' p 0 _ HQ Eq H1 (conj eq_refl (conj H2 (conj Ep eq_refl))) (dl_refl s)).
    - bstep E1 s2 Eu. apply update_ledger_ok in Eu as (l & l' & H1 & H2 & ->). bstep E1 p Ep. injection E1 as <-.
      exact (F_upd C E Q s resp o q _ i l l' p 0 _ HQ Eq H1 (conj eq_refl (conj H2 (conj Ep eq_refl))) (dl_refl s)).
    - bstep E1 l El. bstep E1 a Ea. apply stk_ok in Ea as ->. bstep E1 L EL. apply update_ledger_ok in E1 as (l0 & l' & H1 & H2 & ->). injection H2 as <-.
      change (ls_leds (put_led s L)) with (ls_leds s) in H1. rewrite El in H1. injection H1 as <-.
      assert (Hd : saturating_sub (sl_total l) (sl_total (sl_consolidate l (ls_era s))) = sl_total l - sl_total (sl_consolidate l (ls_era s))).
      { pose proof (i_leds _ _ I _ _ El) as Hs. destruct (sl_consolidate_ok l (ls_era s) Hs) as (_ & _ & _ & K). pose proof (due_le (ls_era s) _ (proj2 (proj2 (proj2 Hs)))). unfold saturating_sub. lia. }
      rewrite Hd in EL.
      exact (F_upd C E Q s resp o q _ i l _ (ls_pool s) _ _ HQ Eq El (conj eq_refl (conj eq_refl (conj eq_refl eq_refl))) (mint_dl s _ L HC W EL)).
    - injection E1 as <-. exact (F_nominate C E Q s resp o q i x HQ Eq).
  Qed.

  Lemma same_refl s s' : ls_ln s' = ls_ln s -> ls_rate s' = ls_rate s -> ls_res s' = ls_res s -> ls_ures s' = ls_ures s -> ls_pool s' = ls_pool s ->
    ls_reqs s' = ls_reqs s -> ls_fast s' = ls_fast s -> ls_unl s' = ls_unl s -> ls_leds s' = ls_leds s -> ls_qid s' = ls_qid s ->
    ls_rf s' = ls_rf s -> ls_urf s' = ls_urf s -> ls_comm s' = ls_comm s -> 0 <= ls_era s' <= U32MAX -> same_core s s'.
  Proof.
    intros H1 H2 H3 H4 H5 H6 H7 H8 H9 H10 H11 H12 H13 H14. unfold same_core. rewrite H11, H12, H13, H10.
    do 9 (split; [assumption|]). split; [lia|]. split; [auto|]. split; [auto|]. split; [auto|]. intros _. exact H14.
  Qed.
  Ltac core9 := unfold same_core; do 9 (split; [reflexivity|]); split; [cbn; lia|]; (split; [|split; [|split]]); intros ?; first [assumption|cbn; lia].
  Ltac misc := apply F_misc; apply same_refl; reflexivity || idtac.

  Lemma update_rate_ok s s' : update_exchange_rate C s = Ok s' ->
    s' = s \/ exists v, let r := v * FDIV / iss (ls_led s) liqA in staked_value s = Some v /\ iss (ls_led s) liqA <> 0 /\ ls_rate s < r <= U128MAX /\ s' = st_ls_rate s r.
  Proof.
    unfold update_exchange_rate. intros H. bstep H lq El. apply liq_ok in El as ->.
    destruct (iss (ls_led s) liqA =? 0) eqn:E0; [injection H as <-; auto|]. bstep H v Ev. bstep H r Er. destruct Er as (K1 & -> & K2 & K3).
    destruct (_ <? _) eqn:El; injection H as <-; [|auto]. right. exists v. split; [exact Ev|]. split; [exact K1|]. split; [apply Z.ltb_lt in El; lia|reflexivity].
  Qed.
  Lemma advance_eff s off s' : advance_era C s off = Ok s' ->
    (off = 0 /\ s' = s) \/ let s2 := st_ls_era (st_ls_start s (ls_rblock s)) (Z.min U32MAX (ls_era s + off)) in
    s' = st_ls_matched s2 false \/ exists v, let r := v * FDIV / iss (ls_led s) liqA in staked_value s = Some v /\ iss (ls_led s) liqA <> 0 /\ ls_rate s < r <= U128MAX /\ s' = st_ls_matched (st_ls_rate s2 r) false.
  Proof.
    unfold advance_era. intros H. destruct (off =? 0) eqn:E0; [injection H as <-; left; split; [lia|reflexivity]|]. right. bstep H s3 E3. injection H as <-. cbv zeta.
    set (s2 := st_ls_era _ _) in *. destruct (update_exchange_rate C s2) as [s4| |] eqn:Eu; [|injection E3 as <-; auto|discriminate]. injection E3 as <-.
    apply update_rate_ok in Eu as [->|(v & V1 & V2 & V3 & ->)]; [auto|]. right. exists v. split; [exact V1|]. split; [exact V2|]. split; [exact V3|reflexivity].
  Qed.
  Lemma advance_leffs s off s' : lsi s -> 0 <= off -> advance_era C s off = Ok s' -> leffs s s'.
  Proof.
    intros I Hoff H. apply advance_eff in H as [[_ ->]|H]; [constructor|]. cbv zeta in H. set (s2 := st_ls_era _ _) in *.
    assert (He : 0 <= Z.min U32MAX (ls_era s + off) <= U32MAX). { pose proof (i_era _ _ I). pose proof u32max_pos. lia. }
    assert (F0 : leff s s2) by (misc; exact He). eapply leffs_cons; [exact F0|].
    destruct H as [->|(v & V1 & V2 & V3 & ->)].
    - apply leffs_one. misc. exact He.
    - eapply leffs_cons; [apply (F_rate C E Q s2 _ v V3); [|exact V1]|]. 2: { apply leffs_one. misc. exact He. }
      change (ls_led s2) with (ls_led s). apply floor_mul; [|pose proof (bal_le_iss _ liqA me (wf_of C s I)); pose proof (proj1 (wf_of C s I) liqA me); lia].
      unfold staked_value in V1. destruct (checked_add _ _); [|discriminate]. apply checked_sub_some in V1 as [-> K]. assert (0 < FDIV) by reflexivity. nia.
  Qed.
  Lemma matching_leffs s s' : ls_cfg_ok C -> lsi s -> do_matching C E s = Ok s' -> leffs s s'.
  Proof.
    intros HC I H. pose proof HC as (_ & _ & _ & _ & _ & _ & _ & _ & _ & _ & C11 & _). apply matching_sents in H; [|apply (i_pool _ _ I)|exact (i_leds _ _ I)|exact C11].
    assert (F : leff s (st_ls_matched s true)) by (misc; exact (i_era _ _ I)). eapply leffs_cons; [exact F|]. apply sents_leffs; [exact HC| |exact H].
    eapply leff_lsi; [apply HC|exact I|exact F].
  Qed.
  Lemma initialize_leffs s s' : ls_cfg_ok C -> lsi s -> on_initialize C E s = Ok s' -> leffs s s'.
  Proof.
    intros HC I H. unfold on_initialize in H. bstep H s1 E1.
    assert (L1 : leffs s s1). { destruct (_ && _); [apply matching_leffs; assumption|injection E1 as <-; constructor]. }
    destruct (era_offset C s1 =? 0) eqn:E0; [injection H as <-; exact L1|]. eapply leffs_trans; [exact L1|].
    apply (advance_leffs _ (era_offset C s1)); [eapply leffs_lsi; [apply HC|exact I|exact L1]| |exact H].
    unfold era_offset. destruct (_ <? _) eqn:El; [lia|]. destruct (lc_eralen C =? 0) eqn:Ez; [lia|]. apply Z.ltb_ge in El. apply Z.eqb_neq in Ez.
    destruct HC as (_ & _ & _ & _ & _ & _ & _ & _ & _ & _ & _ & _ & _ & _ & _ & _ & _ & _ & C19 & _). apply Z.div_pos; lia.
  Qed.
  Lemma setled_leff s o i l' pf s' : ls_cfg_ok C -> relay_ok E -> lsi s -> Q s (KSetLedger o i l' pf) -> set_staking_ledger C E s o i l' pf = Ok s' -> leff s s'.
  Proof.
    intros HC HE I HQ H. unfold set_staking_ledger in H. bstep H u1 E1. bstep H l El. bstep H u2 E2. bstep H u3 E3. bstep H u4 E4. bstep H x Ex. bstep H s1 Es1.
    apply andb_prop in E3 as [E3 Eu]. apply andb_prop in E3 as [Et Ea]. apply Z.ltb_lt in Et, Ea. apply bool_decide_eq_true in Eu.
    destruct (ls_vd s) as [rt|]; [|discriminate]. apply HE in E4.
    assert (Hsub : saturating_sub (sl_total l') (sl_total l) = sl_total l' - sl_total l) by (unfold saturating_sub; lia). rewrite Hsub in Ex.
    assert (exists n, s1 = st_ls_ln s n /\ dl s n 0 x) as (n & -> & D).
    { destruct (x =? 0) eqn:E0.
      - injection Es1 as <-. exists (ls_ln s). apply Z.eqb_eq in E0 as ->. split; [destruct s; reflexivity|apply dl_refl].
      - bstep Es1 lq Elq. apply liq_ok in Elq as ->. bstep Es1 L EL. injection Es1 as <-. exists (st_led (ls_ln s) L). split; [reflexivity|].
        destruct HC as (C1 & C2 & C3 & C4 & C5 & C6 & _). pose proof (mint_spec _ _ _ _ _ _ EL) as (X0 & B & I1). pose proof (mint_wf _ _ _ _ _ _ (wf_of C s I) EL) as W1.
        split; [change (ln_led (st_led (ls_ln s) L)) with L; rewrite B; at_simpl|]. split; [change (ln_led (st_led (ls_ln s) L)) with L; rewrite I1; at_simpl|].
        apply tok_step; [exact W1|]. intros a. fold (ls_led s). rewrite B. at_simpl. }
    apply update_ledger_ok in H as (l0 & l1 & H1 & H2 & ->). injection H2 as <-.
    exact (F_setled C E Q s o i l l' pf x n HQ El E4 Et Ea Eu Ex D).
  Qed.
  Lemma transfer_dl s a rcv x L : ls_cfg_ok C -> ledger_wf (ls_led s) -> 0 <= x -> transfer P (ls_led s) a me rcv x false = Ok L ->
    exists d, 0 <= d <= x /\ (a <> stkA -> d = 0) /\ dl s (st_led (ls_ln s) L) (- d) 0.
  Proof.
    intros HC W Hx H. destruct HC as (C1 & C2 & C3 & C4 & C5 & C6 & _). pose proof (transfer_spec _ _ _ _ _ _ _ _ H) as (B & I1 & _). pose proof (transfer_wf _ _ _ _ _ _ _ _ Hx W H) as W1.
    exists (if bool_decide (a = stkA /\ rcv <> me) then x else 0). split; [case_bool_decide; lia|]. split; [intros; case_bool_decide; tauto|].
    split; [change (ln_led (st_led (ls_ln s) L)) with L; rewrite B; unfold at_; repeat case_bool_decide; intuition (try congruence; try lia)|].
    split; [change (ln_led (st_led (ls_ln s) L)) with L; rewrite I1; lia|].
    apply tok_step; [exact W1|]. intros b. fold (ls_led s). rewrite B. at_simpl.
  Qed.

  (** every step of the system is a sequence of elementary effects *)
  Lemma step_leffs s s' : ls_cfg_ok C -> relay_ok E -> lsi s -> ls_step C E Q s s' -> leffs s s'.
  Proof.
    intros HC HE I [c s1 Hc HQ H|n Hn Hb Hi|b Hb|q Hq].
    - assert (He := i_era _ _ I). destruct c; cbn [ls_exec ls_call_ok] in *.
      + apply leffs_one. eapply stake_leff; try eassumption; apply Hc.
      + apply leffs_one. eapply unstake_leff; try eassumption; apply Hc.
      + unfold update_reserve_factor in H. bstep H u1 E1. bstep H u2 E2. injection H as <-. apply leffs_one, F_misc. core9.
      + unfold update_cap in H. bstep H u1 E1. bstep H u2 E2. injection H as <-. apply leffs_one. misc. exact He.
      + unfold relay_call in H. bstep H u1 E1. apply sents_leffs; [exact HC|exact I|]. eapply bond_sents; [apply Hc|exact H].
      + unfold relay_call in H. bstep H u1 E1. apply sents_leffs; [exact HC|exact I|]. eapply bond_extra_sents; [apply Hc|exact H].
      + unfold relay_call in H. bstep H u1 E1. apply sents_leffs; [exact HC|exact I|]. eapply unbond_sents; [apply Hc|exact H].
      + unfold relay_call in H. bstep H u1 E1. apply sents_leffs; [exact HC|exact I|]. eapply rebond_sents; [apply Hc|exact H].
      + unfold agent_call in H. bstep H u1 E1. apply sents_leffs; [exact HC|exact I|]. eapply withdraw_sents; exact H.
      + unfold agent_call in H. bstep H u1 E1. apply sents_leffs; [exact HC|exact I|]. apply do_nominate_full in H as (_ & _ & H). exact (sents_one _ _ _ _ H).
      + eapply notify_leffs; eassumption.
      + apply leffs_one. eapply claim_leff; eassumption.
      + unfold force_start in H. bstep H u1 E1. injection H as <-. apply leffs_one. misc. exact He.
      + unfold force_era in H. bstep H u1 E1. injection H as <-. apply leffs_one. misc. exact Hc.
      + unfold force_advance in H. bstep H u1 E1. apply (advance_leffs _ x); [exact I|apply Hc|exact H].
      + unfold force_matching in H. bstep H u1 E1. apply matching_leffs; assumption.
      + unfold force_ledger in H. bstep H u1 E1. apply update_ledger_ok in H as (l0 & l1 & H1 & H2 & ->). bstep H2 u2 E2. injection H2 as <-.
        apply leffs_one. exact (F_forceled C E Q s o i l0 l HQ H1 Hc).
      + unfold set_current_era in H. bstep H u1 E1. bstep H u2 E2. eapply advance_leffs; [exact I| |exact H]. unfold saturating_sub. lia.
      + apply leffs_one. eapply setled_leff; eassumption.
      + unfold ls_reduce_reserves in H. bstep H u1 E1. bstep H r Er. destruct Er as [-> Er]. bstep H a Ea. apply stk_ok in Ea as ->. bstep H L EL. injection H as <-.
        apply transfer_dl in EL as (d & D1 & _ & D2); [|exact HC|apply (wf_of C s I)|apply Hc]. apply leffs_one. refine (F_reduce C E Q s x d _ _ D1 D2). pose proof (proj1 Hc). lia.
      + unfold cancel_unstake in H. bstep H lq El. apply liq_ok in El as ->. injection H as <-. apply leffs_one.
        assert (Hnn : 0 <= saturating_sub (Z.min (fast_of s who) (red E s liqA who)) x) by (unfold saturating_sub; lia).
        pose proof (F_fastset C E Q s who _ (ls_ures s) (proj1 Hc) Hnn ltac:(lia)) as K. destruct s; exact K.
      + unfold update_commission in H. bstep H u1 E1. bstep H u2 E2. injection H as <-. apply andb_prop in E2 as [E2 E3]. apply leffs_one, F_misc. core9.
      + unfold fast_match_unstake in H. bstep H u1 E1. eapply fast_all_leffs; eassumption.
      + unfold update_unstake_reserve_factor in H. bstep H u1 E1. bstep H u2 E2. injection H as <-. apply leffs_one, F_misc. core9.
      + unfold reduce_unstake_reserves in H. bstep H u1 E1. bstep H r Er. destruct Er as [-> Er]. bstep H a Ea. apply liq_ok in Ea as ->. bstep H L EL. injection H as <-.
        apply transfer_dl in EL as (d & D1 & D3 & D2); [|exact HC|apply (wf_of C s I)|apply Hc]. rewrite D3 in D2 by (destruct HC as (_ & _ & _ & _ & _ & C6 & _); congruence). apply leffs_one. apply (F_ureduce C E Q s _ _); [lia|exact D2].
      + unfold update_xcm_fee in H. bstep H u1 E1. bstep H u2 E2. bstep H u3 E3. injection H as <-. apply leffs_one. misc. exact He.
      + eapply initialize_leffs; eassumption.
      + injection H as <-. apply leffs_one. unfold on_finalize. destruct vd; misc; exact He.
    - apply leffs_one. apply (F_ln C E Q s n (bal (ln_led n) stkA me - bal (ls_led s) stkA me)); [pose proof (Hb stkA); lia|]. split; [lia|]. split; [rewrite Hi; lia|]. apply lsteps_one. exact Hn.
    - apply leffs_one. misc. apply (i_era _ _ I).
    - apply leffs_one. apply F_misc. core9.
  Qed.
  Lemma genesis_lsi s : ls_genesis C s -> lsi s.
  Proof.
    intros (G1 & G2 & G3 & G4 & G5 & G6 & G7 & G8 & G9 & G10 & G11 & G12 & G13 & G14 & G15 & G16 & _).
    constructor; unfold leds_ok, locked_stake, locked_unstake, pool_stake; rewrite ?G5, ?G6, ?G7, ?G8, ?G9, ?G11, ?G12, ?G13, ?G15, ?G16.
    - eapply genesis_linv; exact G1.
    - exact G3.
    - exact G4.
    - unfold is_permill. assert (0 < PMILL) by reflexivity. lia.
    - assert (0 < FDIV) by reflexivity. lia.
    - lia.
    - lia.
    - pose proof U128MAX_pos. unfold pool_ok, ra_ok, mpool0. cbn. lia.
    - intros i l. rewrite lookup_empty. discriminate.
    - intros q r. rewrite lookup_empty. discriminate.
    - reflexivity.
    - reflexivity.
    - intros w l. rewrite lookup_empty. discriminate.
    - intros w b. rewrite lookup_empty. discriminate.
    - split; [intros i [? H]|intros q r H]; rewrite lookup_empty in H; discriminate.
    - pose proof u32max_pos. lia.
    - cbn. destruct G1 as (_ & _ & _ & _ & _ & _ & _ & _ & _ & _ & _ & [Hb _] & _). apply Hb.
  Qed.
  Lemma steps_leffs s s' : ls_cfg_ok C -> relay_ok E -> lsi s -> ls_steps C E Q s s' -> leffs s s'.
  Proof.
    intros HC HE I H. induction H as [|s1 s2 s3 H IH K]; [constructor|]. eapply leffs_trans; [apply IH; exact I|]. apply step_leffs; try assumption.
    eapply leffs_lsi; [apply HC|exact I|apply IH; exact I].
  Qed.
  Lemma reachable_leffs s : ls_cfg_ok C -> relay_ok E -> ls_reachable C E Q s -> exists s0, ls_genesis C s0 /\ lsi s0 /\ leffs s0 s.
  Proof. intros HC HE (s0 & G & H). pose proof (genesis_lsi s0 G) as I. exists s0. split; [exact G|]. split; [exact I|]. apply steps_leffs; assumption. Qed.
  Lemma reachable_lsi s : ls_cfg_ok C -> relay_ok E -> ls_reachable C E Q s -> lsi s.
  Proof. intros HC HE R. destruct (reachable_leffs s HC HE R) as (s0 & _ & I & H). eapply leffs_lsi; [apply HC|exact I|exact H]. Qed.
End lsp.
