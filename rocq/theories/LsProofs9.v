(** * LsProofs9: what each liquid-staking call leaves alone, and who may make it. *)
From Verif Require Import Base MapSum Ledger AmmModel LoansModel LoansSpec LsModel LsSpec LsProofs LsDist LsProofs2 LsProofs3 LsProofs4 LsProofs5 LsProofs6 LsProofs7.

(** the storage that requests to the relay chain never touch *)
Definition kept (s : lst) := (ls_rate s, ls_params s, (ls_era s, ls_start s), ls_unl s, ls_fast s, ls_leds s, (ls_res s, ls_ures s), ls_vd s, (pool_stake s, pool_unstake s), ls_rblock s).
Section lsp.
  Context (C : ls_cfg) (E : ls_env).
  Notation P := (e_pol E).
  Lemma send_kept s k r s' : send C E s k r = Ok s' -> kept s' = kept s.
  Proof. intros H. apply send_ok in H as (L & fee & _ & _ & _ & _ & _ & _ & ->). reflexivity. Qed.
  Lemma lock_send_s s x k r s' : (let* p := lock_stake (ls_pool s) x in send C E (st_ls_pool s p) k r) = Ok s' -> kept s' = kept s.
  Proof. intros H. bstep H p Ep. apply lock_stake_ok in Ep as [-> _]. apply send_kept in H. rewrite H. reflexivity. Qed.
  Lemma lock_send_u s x k r s' : (let* p := lock_unstake (ls_pool s) x in send C E (st_ls_pool s p) k r) = Ok s' -> kept s' = kept s.
  Proof. intros H. bstep H p Ep. apply lock_unstake_ok in Ep as [-> _]. apply send_kept in H. rewrite H. reflexivity. Qed.
  Lemma bond_extra_kept s i x s' : do_bond_extra C E s i x = Ok s' -> kept s' = kept s.
  Proof. unfold do_bond_extra. intros H. destruct (x =? 0); [injection H as <-; reflexivity|]. bstep H u1 E1. bstep H u2 E2. bstep H u3 E3. exact (lock_send_s _ _ _ _ _ H). Qed.
  Lemma bond_kept s i x s' : do_bond C E s i x = Ok s' -> kept s' = kept s.
  Proof.
    unfold do_bond. intros H. destruct (x =? 0); [injection H as <-; reflexivity|]. destruct (ls_leds s !! i); [exact (bond_extra_kept _ _ _ _ H)|].
    bstep H u1 E1. bstep H u2 E2. bstep H u3 E3. exact (lock_send_s _ _ _ _ _ H).
  Qed.
  Lemma unbond_kept s i x s' : do_unbond C E s i x = Ok s' -> kept s' = kept s.
  Proof. unfold do_unbond. intros H. destruct (x =? 0); [injection H as <-; reflexivity|]. bstep H u1 E1. bstep H l E2. bstep H u3 E3. bstep H u4 E4. exact (lock_send_u _ _ _ _ _ H). Qed.
  Lemma rebond_kept s i x s' : do_rebond C E s i x = Ok s' -> kept s' = kept s.
  Proof. unfold do_rebond. intros H. destruct (x =? 0); [injection H as <-; reflexivity|]. bstep H u1 E1. bstep H l E2. exact (lock_send_s _ _ _ _ _ H). Qed.
  Lemma withdraw_kept s i x s' : do_withdraw_unbonded C E s i x = Ok s' -> kept s' = kept s.
  Proof. unfold do_withdraw_unbonded. intros H. destruct (_ =? 0); [injection H as <-; reflexivity|]. bstep H u1 E1. bstep H l E2. exact (send_kept _ _ _ _ H). Qed.
  Lemma nominate_kept s i x s' : do_nominate C E s i x = Ok s' -> kept s' = kept s.
  Proof. unfold do_nominate. intros H. bstep H u1 E1. bstep H l E2. exact (send_kept _ _ _ _ H). Qed.
  Lemma run_all_kept f l : (forall s i x s', f s i x = Ok s' -> kept s' = kept s) -> forall s s', run_all f s l = Ok s' -> kept s' = kept s.
  Proof.
    intros Hf. induction l as [|[i x] l IH]; intros s s' H; cbn [run_all] in H; [injection H as <-; reflexivity|]. bstep H s1 E1. rewrite (IH _ _ H). exact (Hf _ _ _ _ E1).
  Qed.
  Lemma matching_kept s s' : do_matching C E s = Ok s' -> kept s' = kept s.
  Proof.
    unfold do_matching, multi_bond, multi_rebond, multi_unbond, multi_withdraw. intros H. bstep H m Em. destruct m as [[b r] u]. bstep H s1 E1. bstep H s2 E2. bstep H s3 E3.
    apply run_all_kept in H; [|exact withdraw_kept]. rewrite H. clear H.
    assert (kept s3 = kept s2) as -> by (destruct (u =? 0); [injection E3 as <-; reflexivity|exact (run_all_kept _ _ unbond_kept _ _ E3)]).
    assert (kept s2 = kept s1) as -> by (destruct (r =? 0); [injection E2 as <-; reflexivity|exact (run_all_kept _ _ rebond_kept _ _ E2)]).
    destruct (b =? 0); [injection E1 as <-; reflexivity|]. rewrite (run_all_kept _ _ bond_kept _ _ E1). reflexivity.
  Qed.
  Lemma instant_ln s who x s' : loans_instant_unstake C E s who x = Ok s' -> s' = st_ls_ln s (ls_ln s').
  Proof.
    intros H. unfold loans_instant_unstake in H. bstep H fee E1. bstep H b E2. bstep H cf E3. bstep H m E4. bstep H sa E5. bstep H L1 T1. bstep H n2 E6. bstep H n3 E7. bstep H n4 E8. bstep H L5 T5.
    injection H as <-. reflexivity.
  Qed.
  (** everything except the token ledger, the matching pool and the fast queue *)
  Definition kept2 (s : lst) := (ls_rate s, ls_params s, (ls_era s, ls_start s), ls_unl s, ls_leds s, (ls_res s, ls_ures s), ls_vd s, ls_rblock s).
  Lemma fast_one_kept s w s' : fast_match_one C E s w = Ok s' -> kept2 s' = kept2 s /\ forall v, v <> w -> ls_fast s' !! v = ls_fast s !! v.
  Proof.
    unfold fast_match_one. intros H. destruct (ls_fast s !! w) as [b|]; [|injection H as <-; auto]. bstep H lq E1. bstep H f E2. bstep H av E3. cbv zeta in H. bstep H s1 E4.
    assert (K : kept2 s1 = kept2 s /\ ls_fast s1 = ls_fast s). { destruct (_ =? 0) in E4; [injection E4 as <-; auto|]. bstep E4 L1 F1. bstep E4 L2 F2. bstep E4 x F3. bstep E4 p F4. bstep E4 a F5. bstep E4 L3 F6. injection E4 as <-. auto. }
    destruct K as [K1 K2]. injection H as <-. split; [rewrite <- K1; reflexivity|]. intros v Hv. cbn. rewrite K2. clear E4. destruct (saturating_sub _ _ =? 0); [apply lookup_delete_ne; auto|apply lookup_insert_ne; auto].
  Qed.
  Lemma fast_all_kept l : forall s s', fast_match_all C E s l = Ok s' -> kept2 s' = kept2 s /\ forall v, v ∉ l -> ls_fast s' !! v = ls_fast s !! v.
  Proof.
    induction l as [|w l IH]; intros s s' H; cbn [fast_match_all] in H; [injection H as <-; auto|]. bstep H s1 E1. apply fast_one_kept in E1 as [K1 K2]. apply IH in H as [H1 H2].
    split; [congruence|]. intros v Hv. rewrite H2 by set_solver. apply K2. set_solver.
  Qed.
  Lemma advance_kept s off s' : advance_era C s off = Ok s' ->
    ls_params s' = ls_params s /\ ls_unl s' = ls_unl s /\ ls_fast s' = ls_fast s /\ ls_leds s' = ls_leds s /\ (ls_res s', ls_ures s') = (ls_res s, ls_ures s).
  Proof. intros H. apply advance_eff in H as [[_ ->]|H]; [auto|]. cbv zeta in H. destruct H as [->|(v & _ & _ & _ & ->)]; auto. Qed.
  Lemma executed_kept s r s' : executed C E s r = Ok s' -> (ls_rate s', ls_params s', (ls_era s', ls_start s'), ls_unl s', ls_fast s', (ls_res s', ls_ures s'), ls_vd s') = (ls_rate s, ls_params s, (ls_era s, ls_start s), ls_unl s, ls_fast s, (ls_res s, ls_ures s), ls_vd s).
  Proof.
    unfold executed. intros H. destruct r as [i x|i x|i x|i x|i x|i x].
    - bstep H u E1. bstep H p E2. apply burn_staked_ok in H as (L & _ & ->). reflexivity.
    - bstep H s1 E1. apply update_ledger_ok in E1 as (l & l' & _ & _ & ->). bstep H p E2. apply burn_staked_ok in H as (L & _ & ->). reflexivity.
    - bstep H e E0. bstep H s1 E1. apply update_ledger_ok in E1 as (l & l' & _ & _ & ->). bstep H p E2. injection H as <-. reflexivity.
    - bstep H s1 E1. apply update_ledger_ok in E1 as (l & l' & _ & _ & ->). bstep H p E2. injection H as <-. reflexivity.
    - bstep H l E1. bstep H a E2. bstep H L E3. apply update_ledger_ok in H as (l0 & l' & _ & _ & ->). reflexivity.
    - injection H as <-. reflexivity.
  Qed.
  Lemma notify_kept s resp o q r s' : notification C E s resp o q r = Ok s' ->
    (ls_rate s', ls_params s', (ls_era s', ls_start s'), ls_unl s', ls_fast s', (ls_res s', ls_ures s'), ls_vd s') = (ls_rate s, ls_params s, (ls_era s, ls_start s), ls_unl s, ls_fast s, (ls_res s, ls_ures s), ls_vd s) /\ (r <> Some true -> s' = s).
  Proof.
    unfold notification. intros H. bstep H u E1. destruct r as [ok|]; [|injection H as <-; auto]. destruct (ls_reqs s !! q) as [req|]; [|injection H as <-; auto].
    destruct ok; cbn [negb] in H; [|injection H as <-; auto]. bstep H s1 E2. injection H as <-. split; [|congruence]. exact (executed_kept _ _ _ E2).
  Qed.
  Lemma agent_ok o : ensure_agent C o = Ok tt -> lc_relay_org C o = true \/ exists w, o = Signed w /\ lc_member C w = true.
  Proof. unfold ensure_agent. destruct (lc_relay_org C o); auto. destruct o as [|w]; [discriminate|]. unfold ensure. destruct (lc_member C w) eqn:Em; [|discriminate]. eauto. Qed.
  Lemma ensure_tt b e u : ensure b e = Ok u -> b = true. Proof. unfold ensure. destruct b; [auto|discriminate]. Qed.

  Ltac fin := cbn; try discriminate; auto; try lia; try congruence; try (intros ? [= <-]; assumption); try tauto.
  Record frame (s : lst) (c : ls_call) (s' : lst) : Prop := mkFrame {
    f_rate : ~ ends_era c -> ls_rate s' = ls_rate s;
    f_era : ~ sets_era c -> ls_era s' = ls_era s;
    f_queue : forall w, ~ touches_queue C c w -> ls_unl s' !! w = ls_unl s !! w;
    f_fast : forall w, ~ touches_fast c w -> ls_fast s' !! w = ls_fast s !! w;
    f_leds : ~ sets_ledgers c -> ls_leds s' = ls_leds s;
    f_params : ls_params s' = ls_params s \/ exists o, ls_governance c = Some o /\ lc_update_org C o = true;
    f_gov : forall o, ls_governance c = Some o -> lc_update_org C o = true;
    f_relay : forall o, ls_relay_call c = Some o -> lc_relay_org C o = true;
    f_agent : forall o, ls_agent_call c = Some o -> lc_relay_org C o = true \/ exists w, o = Signed w /\ lc_member C w = true;
    f_res : ls_res s' < ls_res s -> exists o r x, c = KReduceReserves o r x
  }.
  Lemma frame_kept s c s' : kept s' = kept s -> (forall o, ls_governance c = Some o -> lc_update_org C o = true) -> (forall o, ls_relay_call c = Some o -> lc_relay_org C o = true) ->
    (forall o, ls_agent_call c = Some o -> lc_relay_org C o = true \/ exists w, o = Signed w /\ lc_member C w = true) -> frame s c s'.
  Proof.
    intros K H1 H2 H3. unfold kept in K. injection K as K1 K2 K3 K4 K5 K6 K7 K8 K9 K10 K11 K12 K13 K14 K15 K16.
    constructor; auto; intros; try congruence; try lia. left. unfold ls_params. congruence.
  Qed.
  Lemma exec_frame s c s' : is_permill (ls_rf s) -> ls_call_ok C c -> ls_exec C E s c = Ok s' -> frame s c s'.
  Proof.
    intros Hrf Hc H. destruct c as [w x|w x pr|o x|o x|o i x|o i x|o i x|o i x|o i x|o i t|resp o q r|o w|o b|o e|o x|o|o i l|o e p|o i l p|o r x|w x|o x|o l|o x|o r x|o k x w| |vd]; cbn [ls_exec] in H.
    - (* stake *) unfold stake in H. bstep H u E1. bstep H a1 E2. bstep H a E3. bstep H L1 E4. bstep H s2 E5. unfold add_xcm_fees in E5. bstep E5 L2 F1. injection E5 as <-.
      bstep H a2 E6. bstep H v E7. bstep H lq E8. bstep H u2 E9. bstep H L3 E10. bstep H p E11. bstep H r E12. injection H as <-. destruct E12 as [-> E12].
      constructor; cbn; auto; try discriminate. intros K. exfalso. pose proof (permill_floor _ _ Hrf (proj1 (proj2 Hc))) as K'. change (p_mul_floor (ls_rf s) x) with (ls_rf s * x / PMILL) in *. lia.
    - (* unstake *) unfold unstake in H. bstep H u E1. bstep H u1 E2. bstep H la E3. destruct pr.
      + bstep H y E4. bstep H era E5. bstep H u2 E6. bstep H lq E7. bstep H L1 E8. bstep H L2 E9. bstep H s4 E10. bstep H p E11. injection H as <-. subst s4. constructor; cbn; auto; try discriminate; try lia.
        intros v Hv. apply lookup_insert_ne. auto.
      + bstep H y E4. bstep H era E5. bstep H u2 E6. bstep H lq E7. bstep H L1 E8. bstep H L2 E9. bstep H s4 E10. bstep H p E11. injection H as <-. apply instant_ln in E10. rewrite E10. constructor; cbn; auto; try discriminate; try lia.
        intros v Hv. apply lookup_insert_ne. auto.
      + bstep H lq E4. injection H as <-. constructor; cbn; auto; try discriminate; try lia. intros v Hv. apply lookup_insert_ne. auto.
    - unfold update_reserve_factor in H. bstep H u E1. bstep H u2 E2. injection H as <-. constructor; fin; eauto.
    - unfold update_cap in H. bstep H u E1. bstep H u2 E2. injection H as <-. constructor; fin; eauto.
    - unfold relay_call in H. bstep H u E1. apply bond_kept in H. apply (frame_kept _ _ _ H); fin.
    - unfold relay_call in H. bstep H u E1. apply bond_extra_kept in H. apply (frame_kept _ _ _ H); fin.
    - unfold relay_call in H. bstep H u E1. apply unbond_kept in H. apply (frame_kept _ _ _ H); fin.
    - unfold relay_call in H. bstep H u E1. apply rebond_kept in H. apply (frame_kept _ _ _ H); fin.
    - unfold agent_call in H. bstep H u E1. destruct u. apply agent_ok in E1. apply withdraw_kept in H. apply (frame_kept _ _ _ H); fin.
    - unfold agent_call in H. bstep H u E1. destruct u. apply agent_ok in E1. apply nominate_kept in H. apply (frame_kept _ _ _ H); fin.
    - pose proof H as H0. unfold notification in H0. bstep H0 u E1. clear H0 u. apply notify_kept in H as [K K']. injection K as K1 K2 K3 K4 K5 K6 K7 K8 K9 K10 K11 K12 K13.
      constructor; cbn; try discriminate; intros; try congruence; try lia.
      + destruct r as [[|]|]; [tauto| |]; rewrite K'; auto; discriminate.
      + left. unfold ls_params. congruence.
      + destruct resp; [discriminate|]. injection H as <-. exact E1.
    - unfold claim_for in H. bstep H u E1. destruct u. apply agent_ok in E1. bstep H ch E2. bstep H am E3. bstep H a E4. bstep H u1 E5. bstep H u2 E6. bstep H s1 E7. apply do_claim_ln in E7. injection H as <-. rewrite E7.
      constructor; fin. intros v Hv. destruct (List.filter _ ch); [apply lookup_delete_ne; auto|apply lookup_insert_ne; auto].
    - unfold force_start in H. bstep H u E1. injection H as <-. constructor; fin.
    - unfold force_era in H. bstep H u E1. injection H as <-. constructor; fin.
    - unfold force_advance in H. bstep H u E1. apply advance_kept in H as (A1 & A2 & A3 & A4 & A5). injection A5 as A5 A6. constructor; fin.
    - unfold force_matching in H. bstep H u E1. apply matching_kept in H. apply (frame_kept _ _ _ H); fin.
    - unfold force_ledger in H. bstep H u E1. apply update_ledger_ok in H as (l0 & l' & _ & _ & ->). constructor; fin.
    - unfold set_current_era in H. bstep H u E1. destruct u. apply agent_ok in E1. bstep H u2 E2. apply advance_kept in H as (A1 & A2 & A3 & A4 & A5). injection A5 as A5 A6. constructor; fin.
    - unfold set_staking_ledger in H. bstep H u E1. destruct u. apply agent_ok in E1. bstep H l0 E2. bstep H u2 E3. bstep H u3 E4. bstep H u4 E5. bstep H y E6. bstep H s1 E7. apply update_ledger_ok in H as (l1 & l' & _ & _ & ->).
      assert (K : s1 = st_ls_ln s (ls_ln s1)). { destruct (y =? 0); [injection E7 as <-; destruct s; reflexivity|]. bstep E7 lq F1. bstep E7 L F2. injection E7 as <-. reflexivity. }
      rewrite K. constructor; fin.
    - unfold ls_reduce_reserves in H. bstep H u E1. bstep H r1 E2. bstep H a E3. bstep H L E4. injection H as <-. constructor; cbn; auto; try discriminate; try congruence. eauto.
    - unfold cancel_unstake in H. bstep H lq E1. injection H as <-. constructor; cbn; auto; try discriminate; try lia. intros v Hv. apply lookup_insert_ne. auto.
    - unfold update_commission in H. bstep H u E1. bstep H u2 E2. injection H as <-. constructor; fin; eauto.
    - unfold fast_match_unstake in H. bstep H u E1. destruct u. apply agent_ok in E1. apply fast_all_kept in H as [K K']. injection K as K1 K2 K3 K4 K5 K6 K7 K8 K9 K10 K11 K12 K13.
      constructor; fin. left. unfold ls_params. congruence.
    - unfold update_unstake_reserve_factor in H. bstep H u E1. bstep H u2 E2. injection H as <-. constructor; fin; eauto.
    - unfold reduce_unstake_reserves in H. bstep H u E1. bstep H r1 E2. bstep H a E3. bstep H L E4. injection H as <-. constructor; fin.
    - unfold update_xcm_fee in H. bstep H u E1. bstep H u2 E2. bstep H u3 E3. injection H as <-. constructor; fin; eauto.
    - unfold on_initialize in H. bstep H s1 E1. assert (K : kept s1 = kept s) by (destruct (_ && _) in E1; [exact (matching_kept _ _ E1)|injection E1 as <-; reflexivity]).
      destruct (_ =? 0) in H; [injection H as <-; apply (frame_kept _ _ _ K); fin|]. injection K as K1 K2 K3 K4 K5 K6 K7 K8 K9 K10 K11 K12 K13 K14 K15 K16.
      apply advance_kept in H as (A1 & A2 & A3 & A4 & A5). constructor; cbn; try discriminate; intros; try congruence; try tauto.
      + left. rewrite A1. unfold ls_params. congruence.
      + injection A5 as A5 _. lia.
    - injection H as <-. destruct vd; constructor; cbn; auto; try discriminate; lia.
  Qed.

  (** *** how the exchange rate moves *)
  Lemma value_kept_eq s s1 : kept s1 = kept s -> leds_ok s -> forall v, staked_value s1 = Some v -> v = Z.min U128MAX (active_total s) + pool_stake s - pool_unstake s.
  Proof.
    intros K Hl v H. injection K as K1 K2 K3 K4 K5 K6 K7 K8 K9 K10 K11 K12 K13 K14 K15 K16.
    assert (Ha : active_total s1 = active_total s) by (unfold active_total; congruence). assert (Hl1 : leds_ok s1) by (unfold leds_ok; rewrite K11; exact Hl).
    unfold staked_value in H. rewrite (total_active_eq s1 Hl1), Ha in H. destruct (checked_add _ _) as [y|] eqn:E1; [|discriminate]. ok_arith E1. ok_arith H. destruct E1 as [-> _], H as [-> _].
    unfold pool_stake, pool_unstake in *. lia.
  Qed.
  Lemma rate_moves s c s' : ls_cfg_ok C -> lsi C s -> ls_exec C E s c = Ok s' -> ls_rate s' <> ls_rate s -> ls_call_ok C c ->
    ends_era c /\ ls_era s <= ls_era s' /\ 0 < iss (ls_led s) (lc_liq C) /\
    ls_rate s' = (Z.min U128MAX (active_total s) + pool_stake s - pool_unstake s) * FDIV / iss (ls_led s) (lc_liq C) /\ ls_rate s < ls_rate s'.
  Proof.
    intros HC I H Hr Hc. pose proof (exec_frame s c s' (i_rf _ _ I) Hc H) as F.
    assert (He : ends_era c). { destruct c; try (exfalso; apply Hr; apply (f_rate _ _ _ F); cbn; tauto); exact Logic.I. }
    split; [exact He|].
    assert (G : forall s1 off, kept s1 = kept s -> iss (ls_led s1) (lc_liq C) = iss (ls_led s) (lc_liq C) -> 0 <= off -> advance_era C s1 off = Ok s' ->
      ls_era s <= ls_era s' /\ 0 < iss (ls_led s) (lc_liq C) /\ ls_rate s' = (Z.min U128MAX (active_total s) + pool_stake s - pool_unstake s) * FDIV / iss (ls_led s) (lc_liq C) /\ ls_rate s < ls_rate s').
    { intros s1 off K Ki Ho Ha. pose proof K as K0. injection K as K1 K2 K3 K4 K5 K6 K7 K8 K9 K10 K11 K12 K13 K14 K15 K16. apply advance_eff in Ha as [[_ ->]|Ha]; [congruence|]. cbv zeta in Ha. destruct Ha as [->|(v & V1 & V2 & V3 & ->)]; [cbn in Hr; congruence|].
      cbn. rewrite Ki in *. apply (value_kept_eq s s1 K0 (i_leds _ _ I)) in V1. subst v. pose proof (i_era _ _ I) as HE. rewrite K7.
      assert (0 <= iss (ls_led s) (lc_liq C)). { pose proof (LoansProofs3.li_led _ (proj1 (i_ln _ _ I))) as W. exact (Z.le_trans _ _ _ (proj1 W (lc_liq C) (lc_acct C)) (bal_le_iss (ls_led s) (lc_liq C) (lc_acct C) W)). }
      split; [lia|]. split; [lia|]. split; [reflexivity|]. lia. }
    destruct c; try contradiction; cbn [ls_exec] in H.
    - unfold force_advance in H. bstep H u E1. cbn in Hc. apply (G s x); auto; lia.
    - unfold set_current_era in H. bstep H u E1. bstep H u2 E2. apply (G s _ eq_refl eq_refl) in H; [exact H|]. unfold saturating_sub. lia.
    - unfold on_initialize in H. bstep H s1 E1.
      assert (K : kept s1 = kept s /\ iss (ls_led s1) (lc_liq C) = iss (ls_led s) (lc_liq C)).
      { destruct (_ && _) in E1; [|injection E1 as <-; auto]. split; [exact (matching_kept _ _ E1)|].
        destruct HC as (_ & _ & _ & _ & _ & _ & _ & _ & Hrl & _ & ND & _). apply matching_sents in E1; [|apply I|apply I|exact ND]. clear - E1 Hrl. remember (st_ls_matched s true) as s0 eqn:E0. assert (Hs : ls_led s0 = ls_led s) by (subst; reflexivity). rewrite <- Hs. clear E0 Hs.
        induction E1 as [|s0 r s2 s3 (_ & L & fee & _ & _ & _ & _ & _ & _ & Hi & _ & ->) _ IH]; [reflexivity|]. rewrite IH. cbn. rewrite Hi, bool_decide_false by congruence. lia. }
      destruct K as [K Ki]. destruct (era_offset C s1 =? 0) eqn:Eo; [injection H as <-; injection K as K1 _; congruence|]. apply (G s1 _ K Ki) in H; [exact H|].
      destruct HC as (_ & _ & _ & _ & _ & _ & _ & _ & _ & _ & _ & _ & _ & _ & _ & _ & _ & _ & C19 & _). clear - C19. unfold era_offset. destruct (_ <? _) eqn:A; [lia|]. destruct (lc_eralen C =? 0) eqn:B; [lia|]. apply Z.div_pos; lia.
  Qed.
End lsp.
