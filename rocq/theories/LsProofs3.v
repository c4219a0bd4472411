(** * LsProofs3: every step is a sequence of elementary effects. *)
From Verif Require Import Base MapSum Ledger AmmModel LoansModel LoansSpec LoansProofs2 LoansProofs3 LoansProofs4 LoansProofs5 LsModel LsSpec LsProofs LsDist LsProofs2.

Section lsp.
  Context (C : ls_cfg) (E : ls_env).
  Notation P := (e_pol E).
  Notation stkA := (lc_stk C).
  Notation liqA := (lc_liq C).
  Notation colA := (lc_col C).
  Notation me := (lc_acct C).
  Notation lacct := (ln_acct (lc_loans C)).

  (** *** requests *)
  Lemma do_bond_extra_full s i x s' : 0 <= x -> do_bond_extra C E s i x = Ok s' ->
    (x = 0 /\ s' = s) \/ (0 < x /\ i ∈ lc_idx C /\ is_Some (ls_leds s !! i) /\ saturating_add (total_bonded_of s i) x <= ls_cap s /\ send_eff C s (RBondExtra i x) s').
  Proof.
    intros Hx H. unfold do_bond_extra in H. destruct (x =? 0) eqn:G; [injection H as <-; left; split; [lia|reflexivity]|]. right. bstep H u0 E0. unfold known_idx in E0. apply bool_decide_eq_true in E0.
    bstep H l E1. bstep H u1 E2. unfold ensure_ledger_cap in E2. apply ensure_ok in E2. split; [lia|]. split; [exact E0|]. split; [eauto|]. split; [lia|].
    eapply send_stake_eff; [| | | |exact H]; [exact E0|reflexivity|reflexivity|lia].
  Qed.
  Lemma do_bond_full s i x s' : 0 <= x -> do_bond C E s i x = Ok s' ->
    (x = 0 /\ s' = s) \/ (0 < x /\ i ∈ lc_idx C /\ saturating_add (total_bonded_of s i) x <= ls_cap s /\
      ((is_Some (ls_leds s !! i) /\ send_eff C s (RBondExtra i x) s') \/ (ls_leds s !! i = None /\ lc_mnb C <= x /\ send_eff C s (RBond i x) s'))).
  Proof.
    intros Hx H. unfold do_bond in H. destruct (x =? 0) eqn:G; [injection H as <-; left; split; [lia|reflexivity]|]. right. destruct (ls_leds s !! i) as [l|] eqn:El.
    - apply do_bond_extra_full in H; [|exact Hx]. destruct H as [[-> _]|(H1 & H2 & H3 & H4 & H5)]; [lia|]. split; [exact H1|]. split; [exact H2|]. split; [exact H4|]. left. split; [eauto|exact H5].
    - bstep H u0 E0. unfold known_idx in E0. apply bool_decide_eq_true in E0. bstep H u1 E1. bstep H u2 E2. unfold ensure_ledger_cap in E2. apply ensure_ok in E2.
      split; [lia|]. split; [exact E0|]. split; [lia|]. right. split; [reflexivity|]. split; [lia|]. eapply send_stake_eff; [| | | |exact H]; [exact E0|reflexivity|reflexivity|lia].
  Qed.
  Lemma do_unbond_full s i x s' : 0 <= x -> do_unbond C E s i x = Ok s' ->
    (x = 0 /\ s' = s) \/ (0 < x /\ i ∈ lc_idx C /\ exists l, ls_leds s !! i = Some l /\ Z.of_nat (length (sl_unl l)) < 32 /\ lc_mnb C <= Z.max 0 (sl_active l - x) /\ send_eff C s (RUnbond i x) s').
  Proof.
    intros Hx H. unfold do_unbond in H. destruct (x =? 0) eqn:G; [injection H as <-; left; split; [lia|reflexivity]|]. right. bstep H u0 E0. unfold known_idx in E0. apply bool_decide_eq_true in E0.
    bstep H l E1. bstep H u1 E2. bstep H u2 E3. unfold MAX_CHUNKS, saturating_sub in *. split; [lia|]. split; [exact E0|]. exists l. split; [exact E1|]. split; [lia|]. split; [lia|].
    eapply send_unstake_eff; [| | | |exact H]; [exact E0|reflexivity|reflexivity|lia].
  Qed.
  Lemma do_rebond_full s i x s' : 0 <= x -> do_rebond C E s i x = Ok s' ->
    (x = 0 /\ s' = s) \/ (0 < x /\ i ∈ lc_idx C /\ is_Some (ls_leds s !! i) /\ send_eff C s (RRebond i x) s').
  Proof.
    intros Hx H. unfold do_rebond in H. destruct (x =? 0) eqn:G; [injection H as <-; left; split; [lia|reflexivity]|]. right. bstep H u0 E0. unfold known_idx in E0. apply bool_decide_eq_true in E0.
    bstep H l E1. split; [lia|]. split; [exact E0|]. split; [eauto|]. eapply send_stake_eff; [| | | |exact H]; [exact E0|reflexivity|reflexivity|lia].
  Qed.
  Lemma do_withdraw_full s i sp s' : do_withdraw_unbonded C E s i sp = Ok s' ->
    s' = s \/ (i ∈ lc_idx C /\ is_Some (ls_leds s !! i) /\ send_eff C s (RWithdraw i sp) s').
  Proof.
    intros H. unfold do_withdraw_unbonded in H. destruct (_ =? 0) eqn:G; [injection H as <-; auto|]. right. bstep H u0 E0. unfold known_idx in E0. apply bool_decide_eq_true in E0.
    bstep H l E1. split; [exact E0|]. split; [eauto|]. eapply send_none_eff; [| | |exact H]; [exact E0|reflexivity|reflexivity].
  Qed.
  Lemma do_nominate_full s i t s' : do_nominate C E s i t = Ok s' ->
    i ∈ lc_idx C /\ is_Some (ls_leds s !! i) /\ send_eff C s (RNominate i t) s'.
  Proof.
    intros H. unfold do_nominate in H. bstep H u0 E0. unfold known_idx in E0. apply bool_decide_eq_true in E0.
    bstep H l E1. split; [exact E0|]. split; [eauto|]. eapply send_none_eff; [| | |exact H]; [exact E0|reflexivity|reflexivity].
  Qed.
  (** a sequence of requests *)
  Inductive sents : lst -> lst -> Prop :=
  | sents_nil s : sents s s
  | sents_cons s r s1 s2 : send_eff C s r s1 -> sents s1 s2 -> sents s s2.
  Lemma sents_one s r s' : send_eff C s r s' -> sents s s'.
  Proof. intros H. eapply sents_cons; [exact H|constructor]. Qed.
  Lemma sents_trans s1 s2 s3 : sents s1 s2 -> sents s2 s3 -> sents s1 s3.
  Proof. induction 1; [auto|]. intros K. eapply sents_cons; [eassumption|auto]. Qed.
  Lemma run_all_sents f l : (forall s i x s', (i, x) ∈ l -> f s i x = Ok s' -> sents s s') -> forall s s', run_all f s l = Ok s' -> sents s s'.
  Proof.
    induction l as [|[i x] l IH]; intros Hf s s' H; cbn [run_all] in H; [injection H as <-; constructor|]. bstep H s1 E1.
    eapply sents_trans; [eapply Hf; [left|exact E1]|]. apply IH; [|exact H]. intros s2 j y s3 Hin. apply Hf. right. exact Hin.
  Qed.
  Lemma bond_sents s i x s' : 0 <= x -> do_bond C E s i x = Ok s' -> sents s s'.
  Proof.
    intros Hx H. apply (do_bond_full _ _ _ _ Hx) in H as [[_ ->]|(_ & _ & _ & [[_ H]|(_ & _ & H)])]; [constructor|exact (sents_one _ _ _ H)|exact (sents_one _ _ _ H)].
  Qed.
  Lemma bond_extra_sents s i x s' : 0 <= x -> do_bond_extra C E s i x = Ok s' -> sents s s'.
  Proof.
    intros Hx H. apply (do_bond_extra_full _ _ _ _ Hx) in H as [[_ ->]|(_ & _ & _ & _ & H)]; [constructor|exact (sents_one _ _ _ H)].
  Qed.
  Lemma unbond_sents s i x s' : 0 <= x -> do_unbond C E s i x = Ok s' -> sents s s'.
  Proof.
    intros Hx H. apply (do_unbond_full _ _ _ _ Hx) in H as [[_ ->]|(_ & _ & l & _ & _ & _ & H)]; [constructor|exact (sents_one _ _ _ H)].
  Qed.
  Lemma rebond_sents s i x s' : 0 <= x -> do_rebond C E s i x = Ok s' -> sents s s'.
  Proof.
    intros Hx H. apply (do_rebond_full _ _ _ _ Hx) in H as [[_ ->]|(_ & _ & _ & H)]; [constructor|exact (sents_one _ _ _ H)].
  Qed.
  Lemma withdraw_sents s i x s' : do_withdraw_unbonded C E s i x = Ok s' -> sents s s'.
  Proof.
    intros H. apply do_withdraw_full in H as [->|(_ & _ & H)]; [constructor|exact (sents_one _ _ _ H)].
  Qed.
  (** the facts about staking ledgers a distribution needs *)
  Definition leds_ok (s : lst) : Prop := forall i l, ls_leds s !! i = Some l -> sled_ok l.
  Lemma active_of_nonneg s i : leds_ok s -> 0 <= active_bonded_of s i.
  Proof. intros H. unfold active_bonded_of. destruct (ls_leds s !! i) as [l|] eqn:El; [|lia]. destruct (H _ _ El) as (_ & K & _). exact K. Qed.
  Lemma unbonding_of_nonneg s i : 0 <= unbonding_of s i.
  Proof. unfold unbonding_of, saturating_sub. destruct (ls_leds s !! i); lia. Qed.
  Lemma sents_leds s s' : sents s s' -> ls_leds s' = ls_leds s.
  Proof. induction 1 as [|s r s1 s2 H _ IH]; [reflexivity|]. rewrite IH. destruct H as (_ & L & fee & _ & _ & _ & _ & _ & _ & _ & _ & ->). reflexivity. Qed.
  Lemma map_fst_idx {A} (f : Z -> A) l : map fst (map (fun i => (i, f i)) l) = l.
  Proof. rewrite map_map. cbn. apply map_id. Qed.
  Lemma multi_bond_sents s x s' : 0 <= x -> leds_ok s -> NoDup (lc_idx C) -> multi_bond C E s x = Ok s' -> sents s s'.
  Proof.
    intros Hx Hl Hn H. unfold multi_bond in H. destruct (x =? 0); [injection H as <-; constructor|]. revert H. apply run_all_sents. intros s1 i y s2 Hin H.
    eapply bond_sents; [|exact H]. pose proof (bond_dist_ok (lc_strat C) (map (fun i => (i, active_bonded_of s i, total_bonded_of s i)) (lc_idx C)) x (ls_cap s) (lc_mnb C) Hx) as K.
    destruct K as (_ & _ & K); [| |destruct (K _ _ Hin); lia].
    - apply List.Forall_forall. intros e He. apply in_map_iff in He as (j & <- & _). cbn. apply active_of_nonneg. exact Hl.
    - rewrite map_map. cbn. rewrite map_id. exact Hn.
  Qed.
  Lemma multi_rebond_sents s x s' : 0 <= x -> NoDup (lc_idx C) -> multi_rebond C E s x = Ok s' -> sents s s'.
  Proof.
    intros Hx Hn H. unfold multi_rebond in H. destruct (x =? 0); [injection H as <-; constructor|]. revert H. apply run_all_sents. intros s1 i y s2 Hin H.
    eapply rebond_sents; [|exact H]. pose proof (rebond_dist_ok (lc_strat C) (map (fun i => (i, unbonding_of s i)) (lc_idx C)) x Hx) as K.
    destruct K as (_ & _ & _ & K); [| |destruct (K _ _ Hin); lia].
    - apply List.Forall_forall. intros e He. apply in_map_iff in He as (j & <- & _). cbn. apply unbonding_of_nonneg.
    - rewrite map_fst_idx. exact Hn.
  Qed.
  Lemma unbond_dist_pos st l x mnb i y : 0 <= x -> (i, y) ∈ unbond_dist st l x mnb -> 0 < y.
  Proof.
    intros Hx. destruct st; cbn [unbond_dist].
    - destruct (share_le l x Hx) as [S1 _]. intros H. destruct (avg_unbond_spec mnb l _ S1) as (_ & _ & K). destruct (K _ _ H). assumption.
    - intros H. destruct (mm_unbond_spec mnb (sort_by (fun a b => b.2 <=? a.2) l) x Hx) as (_ & _ & K). destruct (K _ _ H). assumption.
  Qed.
  Lemma multi_unbond_sents s x s' : 0 <= x -> multi_unbond C E s x = Ok s' -> sents s s'.
  Proof.
    intros Hx H. unfold multi_unbond in H. destruct (x =? 0); [injection H as <-; constructor|]. revert H. apply run_all_sents. intros s1 i y s2 Hin H.
    apply unbond_dist_pos in Hin; [|exact Hx]. eapply unbond_sents; [|exact H]. lia.
  Qed.
  Lemma multi_withdraw_sents s sp s' : multi_withdraw C E s sp = Ok s' -> sents s s'.
  Proof. unfold multi_withdraw. apply run_all_sents. intros s1 i y s2 _ H. eapply withdraw_sents. exact H. Qed.
  Lemma total_unbonding_nonneg s : 0 <= total_unbonding s.
  Proof.
    unfold total_unbonding. generalize (led_values s) as l. intros l. assert (K : forall acc, 0 <= acc -> 0 <= fold_left (fun acc l => saturating_add acc (saturating_sub (sl_total l) (sl_active l))) l acc); [|apply K; lia].
    induction l as [|x l IH]; intros acc Ha; cbn [fold_left]; [exact Ha|]. apply IH. unfold saturating_add. apply sat128_range.
  Qed.
  Lemma matching_sents s s' : pool_ok (ls_pool s) -> leds_ok s -> NoDup (lc_idx C) -> do_matching C E s = Ok s' -> sents (st_ls_matched s true) s'.
  Proof.
    intros Hp Hl Hn H. unfold do_matching in H. destruct (matching_ok (ls_pool s) (total_unbonding s) Hp (total_unbonding_nonneg s)) as (b & r & u & K & _ & Hb & Hr & Hu & _).
    rewrite K in H. cbn [rbind] in H. bstep H s1 E1. bstep H s2 E2. bstep H s3 E3.
    apply multi_bond_sents in E1; [|exact Hb|exact Hl|exact Hn]. apply multi_rebond_sents in E2; [|exact Hr|exact Hn]. apply multi_unbond_sents in E3; [|exact Hu]. apply multi_withdraw_sents in H.
    eapply sents_trans; [exact E1|]. eapply sents_trans; [exact E2|]. eapply sents_trans; [exact E3|exact H].
  Qed.
End lsp.
