(** * LsEx: a concrete configuration and reachable histories for the liquid-staking theorems. *)
From Verif Require Import Base MapSum Ledger AmmModel AmmEx LoansModel LoansSpec LoansProofs2 LoansProofs3 LoansProofs4 LoansEx LsModel LsSpec LsProofs LsProofs2 LsProofs3 LsProofs4 LsProofs5 LsProofs6 LsProofs7.

(** actions of a concrete history; an action that is refused, or not allowed, leaves the state unchanged *)
Inductive sact := SCall (c : ls_call) | SLoans (x : lact) | SRelay (b : Z).
Definition keeps_b (C : ls_cfg) (L L' : ledger) : bool :=
  forallb (fun kv => if kv.1.2 =? lc_acct C then kv.2 <=? bal L' kv.1.1 (lc_acct C) else true) (map_to_list (l_bal L)) && (iss L' (lc_liq C) =? iss L (lc_liq C)).
Definition sact_run (C : ls_cfg) (E : ls_env) (qb : lst -> ls_call -> bool) (s : lst) (x : sact) : lst :=
  match x with
  | SCall c => if qb s c then ls_apply C E s c else s
  | SLoans x => let n := lact_run (lc_loans C) (e_pol E) (ls_ln s) x in if keeps_b C (ls_led s) (ln_led n) then st_ls_ln s n else s
  | SRelay b => if (ls_rblock s <=? b) && (b <=? U32MAX) then st_ls_rblock s b else s
  end.
Definition sacts_run C E qb s l := fold_left (sact_run C E qb) l s.
Definition sact_ok (C : ls_cfg) (x : sact) : Prop := match x with SCall c => ls_call_ok C c | SLoans x => lact_ok (lc_loans C) x | SRelay _ => True end.
Lemma keeps_bal C L L' : ledger_wf L' -> keeps_b C L L' = true -> (forall a, bal L a (lc_acct C) <= bal L' a (lc_acct C)) /\ iss L' (lc_liq C) = iss L (lc_liq C).
Proof.
  intros [W _] H. unfold keeps_b in H. apply andb_prop in H as [H1 H2]. split; [|lia]. intros a. unfold bal at 1. destruct (l_bal L !! (a, lc_acct C)) as [v|] eqn:El; cbn; [|apply W].
  rewrite forallb_forall in H1. specialize (H1 ((a, lc_acct C), v)). cbn in H1. rewrite Z.eqb_refl in H1. unfold id. apply Z.leb_le, H1. apply elem_of_list_In, elem_of_map_to_list. exact El.
Qed.
Lemma ls_reach_step C E Q s s' : ls_reachable C E Q s -> ls_step C E Q s s' -> ls_reachable C E Q s'.
Proof. intros (s0 & G & H) K. exists s0. split; [exact G|]. eapply ls_more; eassumption. Qed.
Lemma lact_step C P s x : linv s -> lact_ok C x -> lact_run C P s x = s \/ loans_step C P s (lact_run C P s x).
Proof.
  intros [Hi _] Hok. destruct x as [c|t b|a p|a src dst amt]; cbn [lact_run lact_ok] in *.
  - unfold loans_apply. destruct (loans_exec C P s c) as [s'| |] eqn:E; auto. right. econstructor; eauto.
  - destruct (_ && _) eqn:E; auto. right. apply step_clock; lia.
  - destruct (z_bounds_b p) eqn:E; auto. right. apply step_oracle. intros b x Hx.
    destruct (Z.eq_dec b a) as [->|Ne]; [rewrite lookup_insert in Hx; injection Hx as <-; apply andb_prop in E; unfold is_u128; lia|].
    rewrite lookup_insert_ne in Hx by auto. exact (LoansProofs3.li_price s Hi b x Hx).
  - destruct (_ || _) eqn:E; auto. apply orb_false_elim in E as [E1 E2]. destruct (transfer _ _ _ _ _ _ _) as [L| |] eqn:T; auto. right. apply step_tokens.
    + apply (transfer_wf P (ln_led s) a src dst amt false L); [lia|apply LoansProofs3.li_led; exact Hi|exact T].
    + eapply transfer_in; eauto; lia.
Qed.
Lemma sact_reach C E (Q : lst -> ls_call -> Prop) qb s x : ls_cfg_ok C -> relay_ok E -> (forall s c, qb s c = true -> Q s c) -> ls_reachable C E Q s -> sact_ok C x -> ls_reachable C E Q (sact_run C E qb s x).
Proof.
  intros HC HE HQ R Hok. pose proof (reachable_lsi C E Q s HC HE R) as I. destruct x as [c|x|b]; cbn [sact_run sact_ok] in *.
  - destruct (qb s c) eqn:Eq; [|exact R]. unfold ls_apply. destruct (ls_exec C E s c) as [s'| |] eqn:Ex; try exact R. eapply ls_reach_step; [exact R|]. eapply ls_step_call; [exact Hok|apply HQ; exact Eq|exact Ex].
  - destruct (keeps_b _ _ _) eqn:Ek; [|exact R]. destruct (lact_step _ (e_pol E) _ _ (i_ln _ _ I) Hok) as [Eq|Hs].
    + rewrite Eq. destruct s; exact R.
    + assert (W : ledger_wf (ln_led (lact_run (lc_loans C) (e_pol E) (ls_ln s) x))) by (apply LoansProofs3.li_led; exact (proj1 (step_linv _ _ _ _ (i_ln _ _ I) Hs))).
      apply (keeps_bal C _ _ W) in Ek as [K1 K2]. eapply ls_reach_step; [exact R|]. apply ls_step_env; assumption.
  - destruct (_ && _) eqn:Eb; [|exact R]. eapply ls_reach_step; [exact R|]. apply ls_step_relay. lia.
Qed.
Lemma sacts_reach C E (Q : lst -> ls_call -> Prop) qb l s : ls_cfg_ok C -> relay_ok E -> (forall s c, qb s c = true -> Q s c) -> ls_reachable C E Q s -> Forall (sact_ok C) l -> ls_reachable C E Q (sacts_run C E qb s l).
Proof.
  intros HC HE HQ. unfold sacts_run. revert s. induction l as [|x l IH]; cbn; intros s R H; auto. inversion H; subst. apply IH; auto. eapply sact_reach; eassumption.
Qed.
Definition ls_start_state (L : ledger) (rate rf rb : Z) : lst :=
  mkLst (loans_start L 1600000000 10) rate 0 rf 0 0 0 mpool0 0 ∅ ∅ 0 0 ∅ ∅ ∅ false None 0 rb ∅.
Lemma ls_start_reach C E Q L rate rf rb : ledger_wf L -> iss L (lc_liq C) = 0 -> is_u128 rate -> is_permill rf -> 0 <= rb <= U32MAX ->
  ls_reachable C E Q (ls_start_state L rate rf rb).
Proof.
  intros. exists (ls_start_state L rate rf rb). split; [|constructor]. unfold ls_genesis, ls_start_state. cbn [ls_ln ls_rate ls_comm ls_rf ls_res ls_urf ls_ures ls_pool ls_cap ls_reqs ls_fast ls_era ls_start ls_unl ls_leds ls_upd ls_matched ls_vd ls_qid ls_rblock ls_xfee].
  split. { unfold loans_genesis, loans_start; cbn. do 10 (split; [reflexivity|]). split; [reflexivity|]. split; [assumption|]. split; [intros a x Hx; rewrite lookup_empty in Hx; discriminate|]. split; split; apply Z.leb_le; vm_compute; reflexivity. }
  split; [assumption|]. split; [assumption|]. split; [assumption|]. do 13 (split; [reflexivity|]). split; [reflexivity|]. split; [reflexivity|]. split; [lia|]. split; [assumption|reflexivity].
Qed.
Definition any_b : lst -> ls_call -> bool := fun _ _ => true.
Definition sled_okb (l : sled) : bool :=
  (sl_total l =? sl_active l + chunk_sum (sl_unl l)) && (0 <=? sl_active l) && (sl_total l <=? U128MAX) && forallb (fun c => 0 <=? c_v c) (sl_unl l).
Lemma sled_okb_ok l : sled_okb l = true -> sled_ok l.
Proof.
  unfold sled_okb, sled_ok. intros H. apply andb_prop in H as [H H4]. apply andb_prop in H as [H H3]. apply andb_prop in H as [H1 H2]. split; [lia|]. split; [lia|]. split; [lia|].
  apply Forall_forall. intros c Hc. rewrite forallb_forall in H4. apply elem_of_list_In in Hc. specialize (H4 c Hc). lia.
Qed.

(** accounts 5 (pallet), 6 (XCM fees), 7 (protocol fee receiver); staking token 50, liquid token 51, collateral token 52 *)
Definition sxC (st : strategy) : ls_cfg :=
  mkLsCfg lxC 5 6 7 50 51 52 50 true true [0; 1] 2 (10 ^ 16) (10 ^ 16) 10 5 2 10 100 0 10 st
    (fun o => match o with Root => true | _ => false end) (fun o => match o with Root => true | _ => false end) (fun w => w =? 8).
Definition sxE : ls_env := mkLsEnv allow_all (fun _ => true) (fun _ _ p => p =? 1) (fun _ _ l p => (p =? 1) && sled_okb l).
Lemma sxC_ok st : ls_cfg_ok (sxC st).
Proof.
  unfold ls_cfg_ok; cbn. do 10 (split; [discriminate|]). split; [repeat constructor; set_solver|]. do 6 (split; [apply u128b; vm_compute; reflexivity|]). split; [|split]; split; try (apply Z.leb_le; vm_compute; reflexivity).
Qed.
Lemma sxE_ok : relay_ok sxE.
Proof. intros r i l p H. cbn in H. apply andb_prop in H as [_ H]. apply sled_okb_ok. exact H. Qed.
Definition sxL : ledger := mk_ledger [(50, 100, 10 ^ 12); (50, 101, 10 ^ 12); (50, 102, 10 ^ 12); (52, 102, 10 ^ 12)].
Definition sx0 : lst := ls_start_state sxL (10 ^ 18) 5000 0.
Lemma sx0_reach st Q : ls_reachable (sxC st) sxE Q sx0.
Proof. apply ls_start_reach; [apply mk_ledger_wf|vm_compute; reflexivity|apply u128b; vm_compute; reflexivity|apply permillb; vm_compute; reflexivity|split; apply Z.leb_le; vm_compute; reflexivity]. Qed.

Ltac sx_conj := lazymatch goal with
  | |- _ /\ _ => split; sx_conj
  | |- ls_user _ _ => split; discriminate
  | |- sled_ok _ => apply sled_okb_ok; vm_compute; reflexivity
  | |- _ <= U32MAX => apply Z.leb_le; vm_compute; reflexivity
  | |- _ => lx_conj end.
Ltac sx_ok := repeat (apply Forall_cons_2; [cbn [sact_ok lact_ok call_ok ls_call_ok]; sx_conj|]); apply Forall_nil_2.

(** *** concrete histories *)
(** two users stake, the era's matching bonds everything on derivative account 0, the relay chain confirms *)
Definition hx1 : list sact :=
  [SCall (KCap Root 100000); SCall (KXcmFee Root 0 1 1); SCall (KCommission Root (10 ^ 17)); SCall (KUnstakeReserveFactor Root 10000);
   SCall (KStake 100 10000); SCall (KStake 101 20000); SRelay 10; SCall KInit; SCall (KNotify true Root 0 (Some true))].
(** then a user unstakes; the next matchings ask for an unbonding, which is confirmed *)
Definition hx2 : list sact := hx1 ++ [SCall (KUnstake 100 4000 RelayChain); SRelay 110; SCall KInit; SRelay 210; SCall KInit; SCall (KNotify true Root 1 (Some true))].
(** two eras pass; the unbonded stake is withdrawn, the user's chunk is due *)
Definition hx3 : list sact := hx2 ++ [SRelay 310; SCall KInit; SRelay 410; SCall KInit; SRelay 510; SCall KInit; SRelay 520; SCall KInit; SCall (KNotify true Root 2 (Some true))].
(** after hx2, new stake asks for the rebond of the same unlocking chunk in two eras running, and both are confirmed *)
Definition hx4 : list sact :=
  hx2 ++ [SCall (KStake 100 5000); SRelay 310; SCall KInit; SCall (KStake 100 5000); SRelay 410; SCall KInit;
          SCall (KNotify true Root 2 (Some true)); SCall (KNotify true Root 3 (Some true)); SCall (KNotify true Root 5 (Some true))].
(** after hx1, more stake is still being bonded when everybody unstakes: two unbond requests for the same stake *)
Definition hx5 : list sact :=
  hx1 ++ [SCall (KStake 102 20000); SRelay 110; SCall KInit; SRelay 120; SCall KInit;
          SCall (KUnstake 100 9948 RelayChain); SCall (KUnstake 101 19898 RelayChain); SCall (KUnstake 102 19898 RelayChain);
          SRelay 210; SCall KInit; SRelay 310; SCall KInit; SRelay 410; SCall KInit; SCall (KNotify true Root 2 (Some true))].
(** fast unstaking: a request, new stake, no matching yet *)
Definition hx6 : list sact := hx1 ++ [SCall (KUnstake 100 4000 MatchingPool); SCall (KStake 102 20000)].
(** the rewards of an era arrive *)
Definition hx7 : list sact := hx1 ++ [SCall (KFinal (Some 7)); SCall (KSetLedger Root 0 (mkSled 31338 31338 []) 1); SRelay 110; SCall KInit].
(** the XCM fee is set above what the fee account holds *)
Definition hx8 : list sact :=
  [SCall (KCap Root 100000); SCall (KXcmFee Root 0 (10 ^ 9) 1); SCall (KStake 100 10000); SRelay 210].
(** the lending pallet has a market for the collateral token and one for the staking token with cash; instant unstaking *)
Definition sxrun (st : strategy) (l : list sact) : lst := sacts_run (sxC st) sxE any_b sx0 l.
Lemma sxrun_reach st l : Forall (sact_ok (sxC st)) l -> ls_reachable (sxC st) sxE any_call (sxrun st l).
Proof. intros H. apply (sacts_reach (sxC st) sxE any_call any_b); [apply sxC_ok|exact sxE_ok|unfold any_call; auto|apply sx0_reach|exact H]. Qed.
Ltac sx_hist := apply sxrun_reach; unfold hx8, hx7, hx6, hx5, hx4, hx3, hx2, hx1; cbn [app]; sx_ok.
Lemma hx1_reach st : ls_reachable (sxC st) sxE any_call (sxrun st hx1). Proof. sx_hist. Qed.
Lemma hx2_reach st : ls_reachable (sxC st) sxE any_call (sxrun st hx2). Proof. sx_hist. Qed.
Lemma hx3_reach st : ls_reachable (sxC st) sxE any_call (sxrun st hx3). Proof. sx_hist. Qed.
Lemma hx4_reach st : ls_reachable (sxC st) sxE any_call (sxrun st hx4). Proof. sx_hist. Qed.
Lemma hx5_reach st : ls_reachable (sxC st) sxE any_call (sxrun st hx5). Proof. sx_hist. Qed.
Lemma hx6_reach st : ls_reachable (sxC st) sxE any_call (sxrun st hx6). Proof. sx_hist. Qed.
Lemma hx7_reach st : ls_reachable (sxC st) sxE any_call (sxrun st hx7). Proof. sx_hist. Qed.
Lemma hx8_reach st : ls_reachable (sxC st) sxE any_call (sxrun st hx8). Proof. sx_hist. Qed.
Definition hx9 : list sact :=
  hx1 ++ [SLoans (ACall (LAddMarket Root 52 (lxM lxJ 1052))); SLoans (ACall (LAddMarket Root 50 (lxM lxJ 1050))); SLoans (ACall (LActivate Root 52)); SLoans (ACall (LActivate Root 50));
          SLoans (APrice 50 (10 ^ 18)); SLoans (APrice 52 (10 ^ 18)); SLoans (APrice 10 (10 ^ 18)); SLoans (ACall (LMint 101 50 (10 ^ 6)))].
(** the whole cycle of an instant unstake: unbond, withdraw, and the claim that repays the loan *)
Definition hx10 : list sact :=
  hx9 ++ [SCall (KUnstake 100 4000 Loans); SRelay 110; SCall KInit; SRelay 210; SCall KInit; SCall (KNotify true Root 1 (Some true));
          SRelay 310; SCall KInit; SRelay 410; SCall KInit; SRelay 510; SCall KInit; SRelay 520; SCall KInit; SCall (KNotify true Root 2 (Some true))].
Lemma hx9_reach st : ls_reachable (sxC st) sxE any_call (sxrun st hx9). Proof. apply sxrun_reach; unfold hx9, hx1; cbn [app]; sx_ok. Qed.
Lemma hx10_reach st : ls_reachable (sxC st) sxE any_call (sxrun st hx10). Proof. apply sxrun_reach; unfold hx10, hx9, hx1; cbn [app]; sx_ok. Qed.
