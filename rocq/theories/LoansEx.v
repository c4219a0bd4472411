(** * LoansEx: concrete configurations and reachable histories for the lending theorems. *)
From Verif Require Import Base MapSum Ledger AmmModel AmmEx LoansModel LoansSpec LoansProofs4.

(** actions of a concrete history; an action that is refused leaves the state unchanged *)
Inductive lact := ACall (c : loans_call) | AClock (t b : Z) | APrice (a p : Z) | AGive (a src dst amt : Z).
Definition lact_run (C : loans_cfg) (P : policy) (s : loans) (x : lact) : loans :=
  match x with
  | ACall c => loans_apply C P s c
  | AClock t b => if (ln_time s <=? t) && (t <=? U64MAX) && (ln_block s <=? b) && (b <=? U32MAX) then st_clock s t b else s
  | APrice a p => if z_bounds_b p then st_price s (<[a := p]> (ln_price s)) else s
  | AGive a src dst amt => if (src =? ln_acct C) || (amt <? 0) then s else
      match transfer P (ln_led s) a src dst amt false with Ok L => st_led s L | _ => s end
  end.
Definition lacts_run C P s l := fold_left (lact_run C P) l s.
Definition lact_ok (C : loans_cfg) (x : lact) : Prop := match x with ACall c => call_ok C c | _ => True end.

Lemma reach_step C P s s' : loans_reachable C P s -> loans_step C P s s' -> loans_reachable C P s'.
Proof. intros (s0 & G & H) Hs. exists s0. split; auto. econstructor; eauto. Qed.
Lemma lact_reach C P s x : loans_reachable C P s -> lact_ok C x -> loans_reachable C P (lact_run C P s x).
Proof.
  intros R Hok. pose proof (reachable_linv C P s R) as [Hi _]. destruct x as [c|t b|a p|a src dst amt]; cbn [lact_run lact_ok] in *.
  - unfold loans_apply. destruct (loans_exec C P s c) as [s'| |] eqn:E; auto. eapply reach_step; eauto. econstructor; eauto.
  - destruct (_ && _) eqn:E; auto. eapply reach_step; eauto. apply step_clock; lia.
  - destruct (z_bounds_b p) eqn:E; auto. eapply reach_step; eauto. apply step_oracle. intros b x Hx.
    destruct (Z.eq_dec b a) as [->|Ne]; [rewrite lookup_insert in Hx; injection Hx as <-; apply andb_prop in E; unfold is_u128; lia|].
    rewrite lookup_insert_ne in Hx by auto. exact (LoansProofs3.li_price s Hi b x Hx).
  - destruct (_ || _) eqn:E; auto. apply orb_false_elim in E as [E1 E2]. destruct (transfer _ _ _ _ _ _ _) as [L| |] eqn:T; auto. eapply reach_step; eauto. apply step_tokens.
    + apply (transfer_wf P (ln_led s) a src dst amt false L); [lia|apply LoansProofs3.li_led; exact Hi|exact T].
    + eapply transfer_in; eauto; lia.
Qed.
Lemma lacts_reach C P l s : loans_reachable C P s -> Forall (lact_ok C) l -> loans_reachable C P (lacts_run C P s l).
Proof.
  unfold lacts_run. revert s. induction l as [|x l IH]; cbn; intros s R H; auto. inversion H; subst. apply IH; auto. apply lact_reach; auto.
Qed.
Definition loans_start (L : ledger) (t b : Z) : loans := mkLoans ∅ ∅ ∅ ∅ ∅ ∅ ∅ ∅ ∅ ∅ [] ∅ L t b.
Lemma start_reach C P L t b : ledger_wf L -> 0 <= t <= U64MAX -> 0 <= b <= U32MAX -> loans_reachable C P (loans_start L t b).
Proof.
  intros. exists (loans_start L t b). split; [|constructor]. unfold loans_genesis, loans_start; cbn.
  do 10 (split; [reflexivity|]). split; [reflexivity|]. split; [assumption|]. split; [intros a x Hx; rewrite lookup_empty in Hx; discriminate|]. auto.
Qed.
Lemma u128b x : z_bounds_b x = true -> is_u128 x. Proof. unfold z_bounds_b, is_u128. intros H. apply andb_prop in H. lia. Qed.
Definition permill_b (x : Z) : bool := (0 <=? x) && (x <=? PMILL).
Lemma permillb x : permill_b x = true -> is_permill x. Proof. unfold permill_b, is_permill. intros H. apply andb_prop in H. lia. Qed.
Ltac lx_leaf := first [exact I | apply u128b; vm_compute; reflexivity | apply permillb; vm_compute; reflexivity | (cbn; lia) | discriminate].
Ltac lx_conj := lazymatch goal with
  | |- _ /\ _ => split; lx_conj
  | |- market_typed _ => unfold market_typed; lx_conj
  | |- model_typed _ => hnf; first [lx_leaf | split; lx_conj]
  | |- opt_ok _ _ => cbn [opt_ok]; lx_leaf
  | |- _ => lx_leaf end.
Ltac lx_ok := repeat (apply Forall_cons_2; [cbn [lact_ok call_ok]; lx_conj|]); apply Forall_nil_2.

(** accounts 1 (pallet), 2 (incentive), 3 (rewards); rewards in asset 900; liquidation-free asset 10 *)
Definition lxC : loans_cfg :=
  mkLoansCfg 1 2 3 900 10 (fun o => match o with Root => true | _ => false end) (fun o => match o with Root => true | _ => false end).
(** collateral factor 50%, threshold 60%, reserve factor 15%, close factor 50%, incentive 1.1, 3% of it reserved *)
Definition lxM (m : rate_model) (pt : Z) : market :=
  mkMarket 500000 600000 150000 500000 (11 * 10 ^ 17) 30000 m Pending (10 ^ 20) (10 ^ 20) pt.
Definition lxJ : rate_model := Jump (2 * 10 ^ 16) (10 ^ 17) (32 * 10 ^ 16) 800000.
Definition U : Z := 10 ^ 12. (* one whole token *)
Definition lx0 : loans :=
  loans_start (mk_ledger [(10, 100, 10^18); (20, 100, 10^18); (30, 100, 10^18); (10, 101, 10^18); (20, 101, 10^18); (30, 101, 10^18); (10, 102, 10^18); (20, 102, 10^18); (900, 102, 10^18)]) 1600000000 10.
(** three markets 10, 20 and 30 (a liquidation-free collateral); rewards in market 20; supply, enable collateral, borrow, a year passes *)
Definition lx_setup : list lact :=
  [ACall (LAddMarket Root 10 (lxM lxJ 1010)); ACall (LAddMarket Root 20 (lxM lxJ 1020)); ACall (LAddMarket Root 30 (lxM (Curve (2 * 10 ^ 16)) 1030));
   ACall (LActivate Root 10); ACall (LActivate Root 20); ACall (LActivate Root 30); ACall (LFree Root [30]);
   APrice 10 (10 ^ 18); APrice 20 (2 * 10 ^ 18); APrice 30 (10 ^ 18);
   ACall (LAddReward 102 (10 ^ 15)); ACall (LSpeed Root 20 (Some (10 ^ 9)) (Some (10 ^ 9)));
   ACall (LMint 100 10 (1000 * U)); ACall (LMint 101 20 (500 * U)); ACall (LMint 101 30 (10 * U));
   ACall (LCollateral 101 20 true); ACall (LCollateral 101 30 true)].
Definition lx_more : list lact :=
  [ACall (LBorrow 101 10 (400 * U)); AClock (1600000000 + 31536000) 2000000; ACall (LRepay 101 10 (5 * U)); ACall (LMint 102 10 (100 * U));
   ACall (LRedeem 100 10 (70 * U)); ACall (LTransferPt 1010 102 100 (10 * U)); ACall (LAddReserves Root 102 10 (3 * U))].
Definition lx1 : loans := lacts_run lxC allow_all lx0 lx_setup.
Definition lx2 : loans := lacts_run lxC allow_all lx1 lx_more.
Lemma lxC_ok : cfg_ok lxC. Proof. unfold cfg_ok; cbn. lia. Qed.
Lemma lx0_reach : loans_reachable lxC allow_all lx0.
Proof. apply start_reach; [apply mk_ledger_wf| |]; split; apply Z.leb_le; vm_compute; reflexivity. Qed.
Lemma lx1_reach : loans_reachable lxC allow_all lx1.
Proof. apply lacts_reach; [apply lx0_reach|]. unfold lx_setup. lx_ok. Qed.
Lemma lx2_reach : loans_reachable lxC allow_all lx2.
Proof. apply lacts_reach; [apply lx1_reach|]. unfold lx_more. lx_ok. Qed.

(** *** histories in which a property fails *)
(** a solvent account with a liquidation-free collateral: after a price drop its debt equals its collateral value *)
Definition lx_lf_acts : list lact :=
  [ACall (LMint 102 10 (100 * U)); ACall (LCollateral 102 10 true); AGive 30 101 102 (10 * U); ACall (LMint 102 30 (10 * U)); ACall (LCollateral 102 30 true);
   ACall (LBorrow 102 20 (25 * U)); APrice 10 (9 * 10 ^ 17)].
Definition lx_lf : loans := lacts_run lxC allow_all lx1 lx_lf_acts.
Lemma lx_lf_reach : loans_reachable lxC allow_all lx_lf.
Proof. apply lacts_reach; [apply lx1_reach|]. unfold lx_lf_acts. lx_ok. Qed.
(** tokens sent directly to the pallet account: the stored exchange rate of market 20 is below the current one *)
Definition lx_gift : loans := lacts_run lxC allow_all lx2 [AGive 20 102 1 (500 * U)].
Lemma lx_gift_reach : loans_reachable lxC allow_all lx_gift.
Proof. apply lacts_reach; [apply lx2_reach|]. lx_ok. Qed.
(** a year in which nobody touches market 10, in which account 101 owes *)
Definition lx_year_acts : list lact := [ACall (LBorrow 101 10 (400 * U)); AClock (1600000000 + 31536000) 2000000].
Definition lx_year : loans := lacts_run lxC allow_all lx1 lx_year_acts.
Lemma lx_year_reach : loans_reachable lxC allow_all lx_year.
Proof. apply lacts_reach; [apply lx1_reach|]. unfold lx_year_acts. lx_ok. Qed.
(** a market with supply cap 1000 tokens of which 400 are lent out *)
Definition lx_cap_acts : list lact :=
  [ACall (LUpdate Root 10 None None None None None None (Some (1000 * U)) None); ACall (LBorrow 101 10 (400 * U))].
Definition lx_cap : loans := lacts_run lxC allow_all lx1 lx_cap_acts.
Lemma lx_cap_reach : loans_reachable lxC allow_all lx_cap.
Proof. apply lacts_reach; [apply lx1_reach|]. unfold lx_cap_acts. lx_ok. Qed.
(** rewards of 10^9 per block for 1000 blocks, all of them claimed by the only supplier of market 20 *)
Definition lx_rew : loans := lacts_run lxC allow_all lx1 [AClock 1600000100 1010; ACall (LClaim 101)].
Lemma lx_rew_reach : loans_reachable lxC allow_all lx_rew.
Proof. apply lacts_reach; [apply lx1_reach|]. lx_ok. Qed.
(** a market accepted by governance whose liquidation incentive is one half, and an unhealthy borrower *)
Definition lx_inc_acts : list lact :=
  [ACall (LUpdate Root 10 None None None None (Some 900000) (Some (5 * 10 ^ 17)) None None); ACall (LBorrow 101 10 (400 * U)); APrice 20 (10 ^ 18)].
Definition lx_inc : loans := lacts_run lxC allow_all lx1 lx_inc_acts.
Lemma lx_inc_reach : loans_reachable lxC allow_all lx_inc.
Proof. apply lacts_reach; [apply lx1_reach|]. unfold lx_inc_acts. lx_ok. Qed.
(** the same with a sane incentive *)
Definition lx_liq : loans := lacts_run lxC allow_all lx1 [ACall (LBorrow 101 10 (400 * U)); APrice 20 (10 ^ 18)].
Lemma lx_liq_reach : loans_reachable lxC allow_all lx_liq.
Proof. apply lacts_reach; [apply lx1_reach|]. lx_ok. Qed.
(** a market with jump utilisation zero *)
Definition lx_ju_acts : list lact :=
  [ACall (LAddMarket Root 10 (lxM (Jump (2 * 10 ^ 16) (10 ^ 17) (32 * 10 ^ 16) 0) 1010)); ACall (LActivate Root 10); ACall (LMint 100 10 (1000 * U));
   AClock 1600000006 11].
Definition lx_ju : loans := lacts_run lxC allow_all lx0 lx_ju_acts.
Lemma lx_ju_reach : loans_reachable lxC allow_all lx_ju.
Proof. apply lacts_reach; [apply lx0_reach|]. unfold lx_ju_acts. lx_ok. Qed.
(** oracle prices near 2^128 *)
Definition lx_big_acts : list lact :=
  [AGive 30 100 101 (9 * 10 ^ 17); ACall (LMint 101 30 (12 * 10 ^ 17)); ACall (LMint 100 20 (8 * 10 ^ 17)); APrice 30 (3 * 10 ^ 38); APrice 20 (3 * 10 ^ 38)].
Definition lx_big : loans := lacts_run lxC allow_all lx1 lx_big_acts.
Lemma lx_big_reach : loans_reachable lxC allow_all lx_big.
Proof. apply lacts_reach; [apply lx1_reach|]. unfold lx_big_acts. lx_ok. Qed.
