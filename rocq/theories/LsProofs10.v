(** * LsProofs10: queues, claims, instant unstaking in full, and responses that never panic. *)
From Verif Require Import Base MapSum Ledger AmmModel LoansModel LoansSpec LoansProofs2 LoansProofs3 LoansProofs4 LoansProofs5 LsModel LsSpec LsProofs LsDist LsProofs2 LsProofs3 LsProofs4 LsProofs5 LsProofs6 LsProofs7.

Lemma add_chunk_due l v era e : e < era -> due e (add_chunk l v era) = due e l.
Proof.
  intros He. induction l as [|c l IH]; cbn [add_chunk due List.filter c_era]; [assert (era <=? e = false) as -> by lia; reflexivity|].
  destruct l as [|c' l'].
  - destruct (c_era c =? era) eqn:G; cbn [List.filter c_era].
    + assert (c_era c <=? e = false) as -> by lia. reflexivity.
    + assert (era <=? e = false) as -> by lia. reflexivity.
  - cbn [List.filter]. unfold due in IH. rewrite IH. reflexivity.
Qed.
Lemma due_not_due e l : due e (not_due e l) = [].
Proof. induction l as [|c l IH]; cbn; [reflexivity|]. destruct (c_era c <=? e) eqn:G; cbn; [exact IH|]. rewrite G. exact IH. Qed.
Lemma due_nil_sum e l : due e l = [] -> chunk_sum (due e l) = 0. Proof. intros ->. reflexivity. Qed.

Section lsp.
  Context (C : ls_cfg) (E : ls_env).
  Notation P := (e_pol E).
  Notation stkA := (lc_stk C).
  Notation liqA := (lc_liq C).
  Notation colA := (lc_col C).
  Notation me := (lc_acct C).
  Notation lacct := (ln_acct (lc_loans C)).

  Lemma queue_claimed s who l : ls_unl s !! who = Some l -> forall w, default [] (claimed_queue s who l !! w) = if decide (w = who) then not_due (ls_era s) l else queue_of s w.
  Proof.
    intros Hl w. unfold claimed_queue, queue_of. destruct (decide (w = who)) as [->|Hn].
    - destruct (not_due (ls_era s) l) eqn:En; [rewrite lookup_delete; reflexivity|rewrite lookup_insert; reflexivity].
    - destruct (not_due (ls_era s) l); [rewrite lookup_delete_ne by auto; reflexivity|rewrite lookup_insert_ne by auto; reflexivity].
  Qed.
  Lemma claim_nothing s o who : due (ls_era s) (queue_of s who) = [] -> forall s', claim_for C E s o who <> Ok s'.
  Proof.
    intros Hd s' H. apply claim_full in H as (l & n & Hl & H). cbv zeta in H. destruct H as (_ & H & _). unfold queue_of in Hd. rewrite Hl in Hd. change (due (ls_era s) l = []) in Hd. rewrite Hd in H. cbn in H. lia.
  Qed.
  (** instant unstaking: what moves *)
  Lemma instant_moves s who x s' : ls_cfg_ok C -> is_u128 x -> loans_instant_unstake C E s who x = Ok s' ->
    exists m, let b := x - lc_loans_fee C * x / FDIV in 0 <= b /\ 0 <= m /\ (exists cf, market_cf (ls_ln s) colA = Ok cf /\ p_recip_mul_ceil cf x = Ok m) /\
      (forall a w, bal (ls_led s') a w = bal (ls_led s) a w + at_ colA lacct a w m - at_ stkA lacct a w b + at_ stkA who a w b) /\
      (forall a, iss (ls_led s') a = iss (ls_led s) a + (if bool_decide (a = colA) then m else 0)).
  Proof.
    intros HC Hx H. destruct HC as (C1 & C2 & C3 & C4 & C5 & C6 & C7 & C8 & C9 & C10 & C11 & C12 & C13 & C14 & C15 & C16 & _).
    apply instant_full in H; [|apply Hx|exact Hx|apply C16].
    destruct H as (n & b & m & cf & n1 & n2 & n3 & n4 & H1 & H2 & H3 & H4 & H5 & H6 & T1 & N1 & H7 & H8 & H9 & T2 & N2 & ->).
    exists m. cbv zeta. rewrite <- H1. pose proof (mint_led _ _ _ _ _ _ _ H7) as T3. pose proof (borrow_led _ _ _ _ _ _ _ H9) as T4.
    assert (L3 : ln_led n3 = ln_led n2). { destruct H8 as [->|H8]; [reflexivity|]. exact (collateral_led _ _ _ _ _ _ H8). }
    pose proof (mint_spec _ _ _ _ _ _ T1) as (M0 & B1 & I1). pose proof (transfer_spec _ _ _ _ _ _ _ _ T3) as (B3 & I3 & _). rewrite L3 in T4.
    pose proof (transfer_spec _ _ _ _ _ _ _ _ T4) as (B4 & I4 & _). pose proof (transfer_spec _ _ _ _ _ _ _ _ T2) as (B2 & I2 & _).
    split; [lia|]. split; [lia|]. split; [eauto|]. change (ls_led (st_ls_ln s n)) with (ln_led n). split.
    - intros a w. rewrite B2, B4, B3, B1. lia.
    - intros a. rewrite I2, I4, I3, I1. destruct (decide (a = colA)) as [->|Hn]; [rewrite !bool_decide_true by auto; lia|]. rewrite !bool_decide_false by auto. lia.
  Qed.
  (** a response is processed without a panic when the ledgers can take it *)
  Definition fits (s : lst) (r : request) : Prop :=
    match r with
    | RBondExtra i x => forall l, ls_leds s !! i = Some l -> sl_total l + x <= U128MAX
    | RUnbond i x => ls_era s + lc_bonding C <= U32MAX /\ forall l, ls_leds s !! i = Some l -> x <= sl_active l
    | _ => True
    end.
  Lemma consolidate_stake_np p x : consolidate_stake p x <> Panic.
  Proof.
    unfold consolidate_stake, ra_unlock, sub_stake, ra_sub, mp_clear, ra_free. destruct (checked_sub (ra_res (mp_s p)) x); cbn [ok_or rbind]; [|discriminate].
    destruct (checked_sub _ _); cbn [ok_or rbind]; [|discriminate]. destruct (_ <? _); cbn [rbind]; [discriminate|]. destruct (checked_sub _ x); cbn [ok_or rbind]; [|discriminate].
    destruct (checked_sub _ _); cbn [ok_or rbind]; [|discriminate]. destruct (checked_sub _ _); cbn [ok_or rbind]; [|discriminate]. destruct (negb _); [discriminate|].
    destruct (checked_sub _ _); cbn [ok_or rbind]; [|discriminate]. destruct (checked_sub _ _); cbn [ok_or rbind]; discriminate.
  Qed.
  Lemma consolidate_unstake_np p x : consolidate_unstake p x <> Panic.
  Proof.
    unfold consolidate_unstake, ra_unlock, sub_unstake, ra_sub, mp_clear, ra_free. destruct (checked_sub (ra_res (mp_u p)) x); cbn [ok_or rbind]; [|discriminate].
    destruct (checked_sub _ _); cbn [ok_or rbind]; [|discriminate]. destruct (_ <? _); cbn [rbind]; [discriminate|]. destruct (checked_sub _ x); cbn [ok_or rbind]; [|discriminate].
    destruct (checked_sub _ _); cbn [ok_or rbind]; [|discriminate]. destruct (checked_sub _ _); cbn [ok_or rbind]; [|discriminate]. destruct (negb _); [discriminate|].
    destruct (checked_sub _ _); cbn [ok_or rbind]; [|discriminate]. destruct (checked_sub _ _); cbn [ok_or rbind]; discriminate.
  Qed.
  Lemma burn_np L a w x : burn_from P L a w x <> Panic.
  Proof. unfold burn_from. destruct (_ =? 0); [discriminate|]. destruct (negb _); [discriminate|]. destruct (_ && _); discriminate. Qed.
  Lemma burn_staked_np s x : burn_staked C E s x <> Panic.
  Proof. unfold burn_staked, stk. destruct (lc_stk_known C); cbn [rbind]; [|discriminate]. pose proof (burn_np (ls_led s) stkA me x). destruct (burn_from _ _ _ _ _); cbn; congruence. Qed.
  Lemma rebond_np rl v ub act : nonneg rl -> 0 <= ub <= v -> 0 <= act -> act + chunk_sum rl <= U128MAX -> ub + chunk_sum rl <= U128MAX -> v <= U128MAX -> rebond_rev rl v ub act <> Panic.
  Proof.
    intros Hn. revert ub act. induction rl as [|c rl IH]; intros ub act H1 H2 H3 H4 Hv; cbn [rebond_rev]; [discriminate|]. apply Forall_cons in Hn as [Hc Hn]. rewrite chunk_sum_cons in *. pose proof (chunk_sum_nonneg _ Hn).
    rewrite raw_add_eq by lia. cbn [rbind]. destruct (_ <=? v) eqn:G.
    - rewrite raw_add_eq by lia. cbn [rbind]. destruct (v <=? _) eqn:G2; [discriminate|]. apply IH; auto; lia.
    - rewrite raw_sub_eq by lia. cbn [rbind]. rewrite raw_add_eq by lia. cbn [rbind]. rewrite raw_sub_eq by lia. discriminate.
  Qed.
  Lemma update_ledger_np s i f : (forall l, ls_leds s !! i = Some l -> f l <> Panic) -> update_ledger s i f <> Panic.
  Proof. intros H. unfold update_ledger. destruct (ls_leds s !! i) as [l|]; cbn [ok_or rbind]; [|discriminate]. specialize (H l eq_refl). destruct (f l); cbn; congruence. Qed.
  Lemma then_np {A B} (r : res A) (f : A -> res B) : r <> Panic -> (forall a, r = Ok a -> f a <> Panic) -> rbind r f <> Panic.
  Proof. destruct r; cbn; [intros _ H; apply H; reflexivity|discriminate|congruence]. Qed.
  Lemma req_le_u128 s q r : lsi C s -> ls_reqs s !! q = Some r -> req_stake r <= U128MAX /\ req_unstake r <= U128MAX.
  Proof. intros I H. destruct (i_req_le C s q r I H) as [A B]. destruct (i_pool _ _ I) as [(P1 & P2 & P3) (P4 & P5 & P6)]. unfold locked_stake, locked_unstake in *. lia. Qed.
  Lemma executed_np s q r : lsi C s -> ls_reqs s !! q = Some r -> fits s r -> executed C E s r <> Panic.
  Proof.
    intros I Hq F. destruct (i_reqs _ _ I q r Hq) as (R1 & R2 & _). destruct (req_le_u128 s q r I Hq) as [R3 R4].
    destruct r as [i x|i x|i x|i x|i x|i x]; cbn [executed fits req_stake req_unstake] in *.
    - apply then_np; [unfold ensure; destruct (negb _); discriminate|]. intros _ _. apply then_np; [apply consolidate_stake_np|]. intros p _. apply burn_staked_np.
    - apply then_np. { apply update_ledger_np. intros l Hl. destruct (i_leds _ _ I i l Hl) as (L1 & L2 & L3 & L4). pose proof (chunk_sum_nonneg _ L4). specialize (F l Hl). unfold sl_bond_extra. rewrite !raw_add_eq by lia. discriminate. }
      intros s1 _. apply then_np; [apply consolidate_stake_np|]. intros p _. apply burn_staked_np.
    - destruct F as [F1 F2]. apply then_np; [unfold raw_add32; assert (ls_era s + lc_bonding C <=? U32MAX = true) as -> by lia; discriminate|]. intros era _.
      apply then_np. { apply update_ledger_np. intros l Hl. destruct (i_leds _ _ I i l Hl) as (L1 & L2 & L3 & L4). pose proof (chunk_sum_nonneg _ L4). specialize (F2 l Hl). unfold sl_unbond. rewrite raw_sub_eq by lia. discriminate. }
      intros s1 _. apply then_np; [apply consolidate_unstake_np|]. discriminate.
    - apply then_np. { apply update_ledger_np. intros l Hl. destruct (i_leds _ _ I i l Hl) as (L1 & L2 & L3 & L4). pose proof (chunk_sum_nonneg _ L4). unfold sl_rebond. apply then_np; [|discriminate]. apply rebond_np; [apply nonneg_rev; exact L4|lia|lia| | |lia]; rewrite chunk_sum_rev; lia. }
      intros s1 _. apply then_np; [apply consolidate_stake_np|]. discriminate.
    - destruct (ls_leds s !! i) as [l|] eqn:El; cbn [ok_or rbind]; [|discriminate]. unfold stk. destruct (lc_stk_known C); cbn [rbind]; [|discriminate].
      apply then_np. { unfold mint_into. destruct (_ =? 0); [discriminate|]. destruct (negb _); [discriminate|]. assert (saturating_sub (sl_total l) (sl_total (sl_consolidate l (ls_era s))) <? 0 = false) as -> by (unfold saturating_sub; lia). destruct (checked_add _ _); cbn; discriminate. }
      intros L _. apply update_ledger_np. discriminate.
    - discriminate.
  Qed.
  Lemma notification_np s resp o q ok : lsi C s -> (ok = Some true -> forall r, ls_reqs s !! q = Some r -> fits s r) -> notification C E s resp o q ok <> Panic.
  Proof.
    intros I F. unfold notification. apply then_np; [unfold ensure; destruct (_ || _); discriminate|]. intros _ _. destruct ok as [ok|]; [|discriminate]. destruct (ls_reqs s !! q) as [r|] eqn:Eq; [|discriminate].
    destruct ok; cbn [negb]; [|discriminate]. apply then_np; [|discriminate]. apply (executed_np s q r I Eq). apply F; auto.
  Qed.
End lsp.

(** a request stays pending until its success is reported *)
Section pending.
  Context (C : ls_cfg) (E : ls_env) (Q : lst -> ls_call -> Prop) (q : Z).
  Hypothesis HQ : forall s resp o, ~ Q s (KNotify resp o q (Some true)).
  Lemma leff_pending s s' r : lsi C s -> leff C E Q s s' -> ls_reqs s !! q = Some r -> ls_reqs s' !! q = Some r.
  Proof.
    intros I H Hq. pose proof (i_reqs C s I q r Hq) as (_ & _ & Hlt).
    destruct H as [n d D0 D|s' K|net rs v n Z1 Z2 Z3 Z4 Z5 Z6 D|key la x era u n Z1 Z2 Z3 Z4 Z5 Z6 Z7 D|w b u Z1 Z2 Z3
      |who l d n L1 L2 L3 D|w x burnt n f' X1 X2 X3 D X4|r0 n Sk S1 S2 S3 S4 D|resp o q0 i x p n B0 B1 B2 B3 D|resp o q0 r0 i l l' p d n U0 U1 U2 U3 D|resp o q0 i t T0 T1|r0 v R1 R2 R3|o i l l' pf x n G0 G1 G2 G3 G4 G5 G6 D|o i l l' G0 G1 G2|x d n X1 X2 D|u n U1 D];
      try exact Hq.
    - destruct K as (_ & _ & _ & _ & _ & -> & _). exact Hq.
    - cbn. rewrite lookup_insert_ne by lia. exact Hq.
    - cbn. destruct (decide (q0 = q)) as [->|Hn]; [exfalso; exact (HQ _ _ _ B0)|]. rewrite lookup_delete_ne by exact Hn. exact Hq.
    - cbn. destruct (decide (q0 = q)) as [->|Hn]; [exfalso; exact (HQ _ _ _ U0)|]. rewrite lookup_delete_ne by exact Hn. exact Hq.
    - cbn. destruct (decide (q0 = q)) as [->|Hn]; [exfalso; exact (HQ _ _ _ T0)|]. rewrite lookup_delete_ne by exact Hn. exact Hq.
  Qed.
  Lemma leffs_pending s s' r : 0 <= lc_bonding C -> lsi C s -> leffs C E Q s s' -> ls_reqs s !! q = Some r -> ls_reqs s' !! q = Some r.
  Proof.
    intros Hb I H. induction H as [|s1 s2 s3 H1 H2 IH]; [auto|]. intros Hq. apply IH; [exact (leff_lsi C E Q s1 s2 Hb I H1)|exact (leff_pending s1 s2 r I H1 Hq)].
  Qed.
  Lemma steps_pending s s' r : ls_cfg_ok C -> relay_ok E -> lsi C s -> ls_steps C E Q s s' -> ls_reqs s !! q = Some r -> ls_reqs s' !! q = Some r.
  Proof. intros HC HE I H. apply leffs_pending; [apply HC|exact I|]. apply steps_leffs; assumption. Qed.
End pending.
Lemma locked_ledger C E s q r o i l p : ls_reqs s !! q = Some r ->
  forall s', ls_exec C E s (KSetLedger o i l p) <> Ok s' /\ ls_exec C E s (KForceLedger o i l) <> Ok s'.
Proof.
  intros Hq s'. assert (Hu : ledger_unlocked s i = false).
  { unfold ledger_unlocked. rewrite (bool_decide_false (ls_reqs s = ∅)); [apply andb_false_r|]. intros K. rewrite K, lookup_empty in Hq. discriminate. }
  split; cbn [ls_exec]; intros H.
  - unfold set_staking_ledger in H. bstep H u E1. bstep H l0 E2. rewrite Hu in H. discriminate.
  - unfold force_ledger in H. bstep H u E1. unfold update_ledger in H. bstep H l0 E2. rewrite Hu in H. discriminate.
Qed.
