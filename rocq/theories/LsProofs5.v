(** * LsProofs5: every step of a history is a sequence of the elementary effects of LsProofs4. *)
From Verif Require Import Base MapSum Ledger AmmModel LoansModel LoansSpec LoansProofs2 LoansProofs3 LoansProofs4 LoansProofs5 LsModel LsSpec LsProofs LsDist LsProofs2 LsProofs3 LsProofs4.

Section lsp.
  Context (C : ls_cfg) (E : ls_env) (Q : lst -> ls_call -> Prop).
  Notation P := (e_pol E).
  Notation stkA := (lc_stk C).
  Notation liqA := (lc_liq C).
  Notation colA := (lc_col C).
  Notation me := (lc_acct C).
  Notation lacct := (ln_acct (lc_loans C)).
  Notation leff := (leff C E Q).
  Notation leffs := (leffs C E Q).
  Notation lsi := (lsi C).
  Notation dl := (dl C E).

  Lemma floor_mul a b : 0 <= a -> 0 < b -> a / b * b <= a.
  Proof. intros. pose proof (div_le_mul a b). nia. Qed.
  Lemma wf_of s : lsi s -> ledger_wf (ls_led s).
  Proof. intros I. exact (li_led _ (proj1 (i_ln _ _ I))). Qed.

  Lemma stake_leff s who amt s' : ls_cfg_ok C -> ls_user C who -> is_u128 amt -> lsi s -> stake C E s who amt = Ok s' -> leff s s'.
  Proof.
    intros HC [U1 U2] Hamt I H. destruct HC as (C1 & C2 & C3 & C4 & C5 & C6 & C7 & C8 & C9 & C10 & C11 & C12 & _).
    apply stake_full in H; [|apply (i_rate _ _ I)|apply (i_rf _ _ I)|apply Hamt|apply C12].
    destruct H as (v & L & H0 & H1 & H2 & H3 & H4 & H5 & H6 & _ & H7 & H8 & B & I1 & W & ->). specialize (W (wf_of s I)).
    apply (F_stake C E Q s (amt - lc_fees C - ls_rf s * amt / PMILL) (ls_rf s * amt / PMILL) v (st_led (ls_ln s) L)); try assumption; try lia.
    split; [|split].
    - change (ln_led (st_led (ls_ln s) L)) with L. rewrite B. at_simpl.
    - change (ln_led (st_led (ls_ln s) L)) with L. rewrite I1. at_simpl.
    - apply tok_step; [exact W|]. intros a. fold (ls_led s). rewrite B. at_simpl.
  Qed.
  Lemma linv_tok n L : linv n -> ledger_wf L -> (forall a, bal (ln_led n) a lacct <= bal L a lacct) -> linv (st_led n L).
  Proof. intros H1 H2 H3. eapply step_linv; [exact H1|]. apply (step_tokens (lc_loans C) P); assumption. Qed.
  (** the ledger after an instant unstake *)
  Lemma instant_dl s who x s' : ls_cfg_ok C -> ls_user C who -> is_u128 x -> linv (ls_ln s) -> loans_instant_unstake C E s who x = Ok s' ->
    exists n, s' = st_ls_ln s n /\ dl s n 0 0.
  Proof.
    intros HC [U1 U2] Hx I H. destruct HC as (C1 & C2 & C3 & C4 & C5 & C6 & C7 & C8 & C9 & C10 & C11 & C12 & C13 & C14 & C15 & C16 & _).
    apply instant_full in H; [|apply Hx|exact Hx|apply C16].
    destruct H as (n & b & m & cf & n1 & n2 & n3 & n4 & H1 & H2 & H3 & H4 & H5 & H6 & T1 & N1 & H7 & H8 & H9 & T2 & N2 & ->).
    exists n. split; [reflexivity|]. pose proof (mint_led _ _ _ _ _ _ _ H7) as T3. pose proof (borrow_led _ _ _ _ _ _ _ H9) as T4.
    assert (L3 : ln_led n3 = ln_led n2). { destruct H8 as [->|H8]; [reflexivity|]. exact (collateral_led _ _ _ _ _ _ H8). }
    pose proof (li_led _ (proj1 I)) as W0. pose proof (mint_wf _ _ _ _ _ _ W0 T1) as W1.
    pose proof (mint_spec _ _ _ _ _ _ T1) as (M0 & B1 & I1). pose proof (transfer_spec _ _ _ _ _ _ _ _ T3) as (B3 & I3 & _).
    pose proof (transfer_wf _ _ _ _ _ _ _ _ M0 W1 T3) as W2. rewrite L3 in T4.
    pose proof (transfer_spec _ _ _ _ _ _ _ _ T4) as (B4 & I4 & _). pose proof (transfer_wf _ _ _ _ _ _ _ _ (proj1 H2) W2 T4) as W4.
    pose proof (transfer_spec _ _ _ _ _ _ _ _ T2) as (B2 & I2 & _). pose proof (transfer_wf _ _ _ _ _ _ _ _ (proj1 H2) W4 T2) as W5.
    split; [|split].
    - rewrite B2, B4, B3, B1. at_simpl.
    - rewrite I2, I4, I3, I1. at_simpl.
    - eapply lsteps_trans with (b := n1). { rewrite N1. apply tok_step; [exact W1|]. intros a. fold (ls_led s). rewrite B1. at_simpl. }
      eapply lsteps_trans. { apply (call_step C E _ (LMint me colA m)); [cbn; auto|exact H7]. }
      eapply lsteps_trans with (b := n3). { destruct H8 as [->|H8]; [constructor|]. apply (call_step C E _ (LDoCollateral me colA true)); [cbn; auto|exact H8]. }
      eapply lsteps_trans. { apply (call_step C E _ (LBorrow me stkA b)); [cbn; auto|exact H9]. }
      rewrite N2. apply tok_step; [exact W5|]. intros a. rewrite B2. at_simpl.
  Qed.
  Lemma unstake_leff s who amt pr s' : ls_cfg_ok C -> ls_user C who -> is_u128 amt -> lsi s -> unstake C E s who amt pr = Ok s' -> leff s s'.
  Proof.
    intros HC HU Hamt I H. pose proof HC as (C1 & C2 & C3 & C4 & C5 & C6 & C7 & C8 & C9 & C10 & C11 & C12 & _). pose proof HU as [U1 U2].
    destruct (decide (pr = MatchingPool)) as [->|Hpr].
    - apply unstake_pool in H; [|apply (i_urf _ _ I)|exact Hamt]. destruct H as (H1 & H2 & H3 & H4 & ->).
      apply F_fastset; [exact HU| |lia]. pose proof (red_bal E s liqA who (proj1 (wf_of s I) liqA who)). unfold saturating_add. pose proof (sat128_range (default 0 (ls_fast s !! who) + (amt - ls_urf s * amt / PMILL))). lia.
    - apply unstake_full in H; [|exact Hpr|apply (i_urf _ _ I)|exact Hamt].
      destruct H as (H1 & H2 & H3 & H4 & H5 & H6 & H7 & H8 & H9 & L & s4 & B & I1 & W & -> & s5 & H10 & ->). specialize (W (wf_of s I)).
      set (rs := ls_urf s * amt / PMILL) in *. set (x := ls_rate s * (amt - rs) / FDIV) in *. set (era := ls_era s + lc_bonding C + 1) in *.
      set (key := match pr with Loans => lacct | _ => who end) in *.
      assert (HT : loans_steps (lc_loans C) P (ls_ln s) (st_led (ls_ln s) L)). { apply tok_step; [exact W|]. intros a. fold (ls_led s). rewrite B. at_simpl. }
      assert (Hx : x * FDIV <= ls_rate s * (amt - rs)). { apply floor_mul; [|reflexivity]. pose proof (i_rate _ _ I) as [? _]. nia. }
      assert (exists n, s5 = st_ls_ln (st_ls_unl (st_ls_ures s (ls_ures s + rs)) (<[key := add_chunk (queue_of s key) x era]> (ls_unl s))) n /\ dl s n 0 (- (amt - rs))) as (n & -> & D).
      { assert (D0 : dl s (st_led (ls_ln s) L) 0 (- (amt - rs))).
        { split; [change (ln_led (st_led (ls_ln s) L)) with L; rewrite B; at_simpl|]. split; [change (ln_led (st_led (ls_ln s) L)) with L; rewrite I1; at_simpl|exact HT]. }
        destruct pr; [|clear Hpr|congruence].
        - injection H10 as <-. eexists. split; [reflexivity|exact D0].
        - apply instant_dl in H10; [|exact HC|exact HU|exact H5|exact (steps_linv _ _ _ _ (i_ln _ _ I) HT)]. destruct H10 as (n & -> & D).
          exists n. split; [reflexivity|]. destruct D0 as (D1 & D2 & D3), D as (D4 & D5 & D6). split; [|split].
          + rewrite D4, Z.add_0_r. exact D1.
          + rewrite D5, Z.add_0_r. exact D2.
          + eapply lsteps_trans; [exact D3|exact D6]. }
      apply (F_unstake C E Q s key (amt - rs) x era (ls_ures s + rs) n); try assumption; try lia.
      + unfold key. destruct pr; congruence.
      + apply H5.
  Qed.
  Lemma claim_leff s o who s' : ls_cfg_ok C -> lsi s -> claim_for C E s o who = Ok s' -> leff s s'.
  Proof.
    intros HC I H. pose proof HC as (C1 & C2 & C3 & C4 & C5 & C6 & C7 & C8 & C9 & C10 & C11 & C12 & _).
    apply claim_full in H as (l & n & H1 & H2 & H3 & H4 & H5 & ->). set (amt := chunk_sum (due (ls_era s) l)) in *.
    pose proof (red_bal E s stkA me (proj1 (wf_of s I) stkA me)) as Hred. pose proof (i_unl _ _ I _ _ H1) as (Hw & Hnn & _).
    assert (exists d, 0 <= d <= amt /\ dl s n (- d) 0) as (d & Hd & D).
    { destruct (decide (who = lacct)) as [->|Hne].
      - apply claim_loans in H5 as (n1 & b & n2 & cf & x & n3 & y & A1 & A2 & A3 & A4 & A5 & A6 & A7 & T1 & N1).
        exists (Z.min b amt). pose proof (accrue_led _ _ _ _ A1) as L1. pose proof (repay_led _ _ _ _ _ _ _ A3) as T2. pose proof (redeem_led _ _ _ _ _ _ _ _ A7) as [Y0 T3].
        assert (S1 : loans_steps (lc_loans C) P (ls_ln s) n1). { apply (call_step C E _ (LGetBorrow me stkA)); [cbn; auto|]. cbn. rewrite A1. cbn. rewrite A2. reflexivity. }
        pose proof (steps_linv _ _ _ _ (i_ln _ _ I) S1) as J1.
        assert (Hb : 0 <= b <= U128MAX). { unfold borrow_balance in A2. pose proof U128MAX_pos. destruct (_ || _); [injection A2 as <-; lia|]. apply ok_or_ok in A2. unfold obind in A2. destruct (f_checked_div _ _); [|discriminate]. apply f_checked_mul_int_some in A2. apply A2. }
        rewrite L1 in T2. pose proof (wf_of s I) as W0.
        pose proof (transfer_spec _ _ _ _ _ _ _ _ T2) as (B2 & I2 & _). assert (W2 : ledger_wf (ln_led n2)) by (eapply transfer_wf; [|exact W0|exact T2]; lia).
        pose proof (transfer_spec _ _ _ _ _ _ _ _ T3) as (B3 & I3 & _). pose proof (transfer_wf _ _ _ _ _ _ _ _ Y0 W2 T3) as W3.
        pose proof (burn_spec _ _ _ _ _ _ T1) as (X0 & _ & B1 & I1). pose proof (burn_wf _ _ _ _ _ _ W3 T1) as W1.
        split; [lia|]. split; [|split].
        + rewrite B1, B3, B2. fold (ls_led s). at_simpl.
        + rewrite I1, I3, I2. fold (ls_led s). at_simpl.
        + eapply lsteps_trans; [exact S1|]. eapply lsteps_trans. { apply (call_step C E _ (LRepay me stkA (Z.min b amt))); [cbn; unfold is_u128; split; [lia|exact C1]|exact A3]. }
          eapply lsteps_trans. { apply (call_step C E _ (LDoRedeem me colA x) n3); [cbn; auto|]. cbn [loans_exec fst_res]. rewrite A7. reflexivity. }
          rewrite N1. apply tok_step; [exact W1|]. intros a. rewrite B1. at_simpl.
      - apply claim_user in H5 as [T N1]; [|exact Hne]. exists amt. split; [lia|]. pose proof (transfer_spec _ _ _ _ _ _ _ _ T) as (B & I1 & _).
        assert (0 <= amt) as Hamt0 by lia. pose proof (transfer_wf _ _ _ _ _ _ _ _ Hamt0 (wf_of s I) T) as W. split; [|split].
        + rewrite B. at_simpl.
        + rewrite I1. lia.
        + rewrite N1. apply tok_step; [exact W|]. intros a. fold (ls_led s). rewrite B. at_simpl. }
    apply (F_claim C E Q s who l d n); try assumption. fold amt. pose proof (i_res _ _ I). pose proof (i_pool _ _ I) as [(P1 & P2 & P3) _]. unfold pool_stake in *. lia.
  Qed.
  Lemma fast_one_leff s w s' : ls_cfg_ok C -> lsi s -> fast_match_one C E s w = Ok s' -> s' = s \/ leff s s'.
  Proof.
    intros HC I H. pose proof HC as (C1 & C2 & C3 & C4 & C5 & C6 & C7 & C8 & C9 & C10 & C11 & C12 & C13 & C14 & C15 & C16 & C17 & _).
    apply fast_full in H; [|apply (i_pool _ _ I)|apply (i_rate _ _ I)|apply C17|apply wf_of; exact I|intros b Hb; apply (i_fast _ _ I _ _ Hb)].
    destruct H as [[-> _]|H]; [auto|]. right. destruct H as (b & av & Hb & Hav & _ & H). pose proof (i_fast _ _ I _ _ Hb) as [[U1 U2] Hb0].
    pose proof (i_pool _ _ I) as [(P1 & P2 & P3) P4].
    set (request := Z.min b (red E s liqA w)) in *. set (matched := Z.min request av) in *. set (fee := Z.min U128MAX (lc_fast_fee C * matched / FDIV)) in *.
    set (burnt := Z.max 0 (matched - fee)) in *. set (x := ls_rate s * burnt / FDIV) in *. set (rest := Z.max 0 (request - matched)) in *.
    set (f' := if rest =? 0 then delete w (ls_fast s) else <[w := rest]> (ls_fast s)) in *.
    assert (Hf' : f' = delete w (ls_fast s) \/ exists b, 0 <= b /\ is_Some (ls_fast s !! w) /\ f' = <[w := b]> (ls_fast s)).
    { unfold f'. destruct (rest =? 0); [auto|]. right. exists rest. split; [apply Z.le_max_l|]. split; [eauto|reflexivity]. }
    destruct H as [[_ ->]|(L & M0 & M1 & M2 & M3 & B & I1 & W & ->)].
    - assert (D0 : dl s (ls_ln s) (- 0) (- 0)). { split; [unfold ls_led; lia|]. split; [unfold ls_led; lia|constructor]. }
      pose proof (F_fast C E Q s w 0 0 (ls_ln s) f' ltac:(unfold free_stake; lia) ltac:(lia) ltac:(lia) D0 Hf') as K.
      rewrite Z.sub_0_r in K. replace (mkMP (mkRA (pool_stake s) (locked_stake s)) (mp_u (ls_pool s))) with (ls_pool s) in K by (unfold pool_stake, locked_stake; destruct (ls_pool s) as [[? ?] ?]; reflexivity).
      destruct s; exact K.
    - specialize (W (wf_of s I)).
      assert (Hb1 : 0 <= burnt) by apply Z.le_max_l.
      assert (Hx : x * FDIV <= ls_rate s * burnt). { unfold x. apply floor_mul; [|reflexivity]. apply Z.mul_nonneg_nonneg; [apply (i_rate _ _ I)|exact Hb1]. }
      clearbody f' rest x burnt fee. 
      refine (F_fast C E Q s w x burnt (st_led (ls_ln s) L) f' _ Hb1 Hx _ Hf').
      + split; [exact M2|exact M3].
      + clear M0 M1 Hav Hb Hb0. split; [change (ln_led (st_led (ls_ln s) L)) with L; rewrite B; at_simpl|]. split; [change (ln_led (st_led (ls_ln s) L)) with L; rewrite I1; at_simpl|].
        apply tok_step; [exact W|]. intros a. fold (ls_led s). rewrite B. at_simpl.
  Qed.
  Lemma leffs_lsi s s' : 0 <= lc_bonding C -> lsi s -> leffs s s' -> lsi s'.
  Proof. intros Hb I H. induction H as [|s1 s2 s3 H _ IH]; [exact I|]. apply IH. eapply leff_lsi; eassumption. Qed.
  Lemma fast_all_leffs l : forall s s', ls_cfg_ok C -> lsi s -> fast_match_all C E s l = Ok s' -> leffs s s'.
  Proof.
    induction l as [|w l IH]; intros s s' HC I H; cbn [fast_match_all] in H; [injection H as <-; constructor|]. bstep H s1 E1.
    apply fast_one_leff in E1; [|exact HC|exact I]. destruct E1 as [->|E1]; [apply IH; assumption|]. eapply leffs_cons; [exact E1|]. apply IH; [exact HC| |exact H].
    eapply leff_lsi; [apply HC|exact I|exact E1].
  Qed.
  Lemma send_leff s r s' : ls_cfg_ok C -> lsi s -> send_eff C s r s' -> leff s s'.
  Proof.
    intros HC I (Hk & L & fee & F0 & S1 & S2 & S3 & S4 & B & I1 & W & ->). destruct HC as (C1 & C2 & C3 & C4 & C5 & C6 & C7 & C8 & C9 & C10 & C11 & C12 & _). specialize (W (wf_of s I)).
    apply F_send; try assumption. split; [change (ln_led (st_led (ls_ln s) L)) with L; rewrite B; at_simpl|]. split; [change (ln_led (st_led (ls_ln s) L)) with L; rewrite I1; at_simpl|].
    apply tok_step; [exact W|]. intros a. fold (ls_led s). rewrite B. at_simpl.
  Qed.
  Lemma sents_leffs s s' : ls_cfg_ok C -> lsi s -> sents C s s' -> leffs s s'.
  Proof.
    intros HC I H. induction H as [|s r s1 s2 H _ IH]; [constructor|]. pose proof (send_leff _ _ _ HC I H) as K. eapply leffs_cons; [exact K|]. apply IH. eapply leff_lsi; [apply HC|exact I|exact K].
  Qed.
End lsp.
