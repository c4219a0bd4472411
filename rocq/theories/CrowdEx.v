(** * CrowdEx: a concrete configuration and concrete histories for the crowdloan properties. *)
From Verif Require Import Base MapSum Ledger AmmModel AmmEx AmmProofs5 StreamModel StreamSpec CrowdModel CrowdSpec CrowdProofs CrowdProofs2 CrowdProofs5.

Definition cxC : cr_cfg :=
  mkCrCfg (mkStrCfg 1 3 1 0 10 (fun o => match o with Root => true | _ => false end)) 5 6 8 100 0 10 2 3 (Some 10) (Some 12)
    (fun _ o => match o with Root => true | _ => false end) (fun w => w =? 77) 1000 50 4.
Definition cxE : cr_env := mkCrEnv allow_all (fun _ => true).
Definition cxt (c : Z) : bool := (c =? 200) || (c =? 201).
Definition cxL : ledger := mk_ledger [(100, 20, 10^6); (100, 21, 10^6); (100, 22, 10^6); (100, 6, 10^6); (0, 5, 10^9)].
Definition cx0 : cr := cr_init (str_init cxL 0).
Definition cxrun (l : list cr_op) : cr := fold_left (cr_exec cxC cxE) l cx0.

Lemma cxC_ok : cr_cfg_ok cxC cxt.
Proof. unfold cr_cfg_ok, str_cfg_ok. cbn. repeat split; lia. Qed.

Definition str_op_okb (C : str_cfg) (o : str_op) : bool :=
  match o with
  | SCreate w _ d _ b e _ | STraitCreate w _ d _ b e _ => negb (w =? str_acct C) && (0 <=? d) && (d <=? U128MAX) && (0 <=? b) && (0 <=? e)
  | SCancel w _ => negb (w =? str_acct C)
  | SWithdraw w _ amt => negb (w =? str_acct C) && (0 <=? amt) && (amt <=? U128MAX)
  | STransfer _ from _ amt => negb (from =? str_acct C) && (0 <=? amt)
  | SBurn _ w _ => negb (w =? str_acct C)
  | _ => true
  end.
Lemma str_op_okb_ok C o : str_op_okb C o = true -> str_op_ok C o.
Proof. destruct o; cbn; intros; repeat split; auto; lia. Qed.
Definition cr_op_okb (C : cr_cfg) (ct : Z -> bool) (o : cr_op) : bool :=
  match o with
  | CCreate _ _ c _ _ _ _ _ => ct c
  | CContribute w _ amt => negb (w =? cc_acct C) && negb (w =? str_acct (cc_str C)) && (0 <=? amt) && (amt <=? U128MAX)
  | CRedeem w _ _ _ amt => negb (w =? str_acct (cc_str C)) && (0 <=? amt) && (amt <=? U128MAX)
  | CRedeemLend _ _ _ w _ _ _ amt => negb (w =? cc_acct C) && negb (w =? str_acct (cc_str C)) && (0 <=? amt) && (amt <=? U128MAX)
  | CRefundFor _ _ _ k amt _ _ => ((k =? KPend) || (k =? KFly) || (k =? KContr)) && (0 <=? amt) && (amt <=? U128MAX)
  | CBonus _ _ _ b => (0 <=? bo_per b) && (bo_per b <=? U128MAX) && (0 <=? bo_start b) && (0 <=? bo_end b)
  | CXFee _ x => 0 <=? x
  | CStr so => str_op_okb (cc_str C) so &&
      match so with
      | SCreate w _ _ _ _ _ _ | STraitCreate w _ _ _ _ _ _ => negb (w =? cc_acct C)
      | STransfer _ from _ _ => negb (from =? cc_acct C)
      | SMint a _ _ => negb (ct a)
      | SBurn a w _ => negb (ct a) && negb (w =? cc_acct C)
      | _ => true
      end
  | _ => true
  end.
Lemma cr_op_okb_ok C ct o : cr_op_okb C ct o = true -> cr_op_ok C ct o.
Proof.
  destruct o; cbn; intros H; auto; try (repeat split; lia).
  apply andb_true_iff in H as [H1 H2]. split; [apply str_op_okb_ok; auto|]. destruct o; auto; try (apply negb_true_iff in H2; auto); try lia.
  apply andb_true_iff in H2 as [H2 H3]. apply negb_true_iff in H2. split; auto. lia.
Qed.
Lemma cxrun_reach l : forallb (cr_op_okb cxC cxt) l = true -> cr_reachable cxC cxE cxt (cxrun l).
Proof.
  intros H. unfold cxrun. assert (R0 : cr_reachable cxC cxE cxt cx0).
  { apply cr_reach_init; [apply str_reach_init; [apply mk_ledger_wf|lia]|]. intros c Hc. unfold cxt in Hc. apply orb_true_iff in Hc as [Hc|Hc]; apply Z.eqb_eq in Hc; subst c; vm_compute; reflexivity. }
  revert R0. generalize cx0. revert H. induction l as [|o l IH]; cbn; intros H s R; [exact R|].
  apply andb_true_iff in H as [H1 H2]. apply IH; auto. apply cr_reach_step; auto. apply cr_op_okb_ok; auto.
Qed.

(** a vault for para 3000, leases 5..8, derivative token 200; 20 contributes 1000 before the opening, 21 2000 after it *)
Definition hc0 : list cr_op :=
  [CXFee 10 1; CXFee 11 2; CStr (SSetMin Root 0 1); CProxy Root 99; CRelayBlock 100; CCreate Root 3000 200 5 8 true 100000 500; CContribute 20 3000 1000].
Definition hc1 : list cr_op := hc0 ++ [COpen Root 3000; CContribute 21 3000 2000].
Definition hc2 : list cr_op := hc1 ++ [CMigrate (Signed 77) 3000; CNotify true (Signed 0) 0 (Some true); CNotify true (Signed 0) 1 (Some true)].
(** success: bonuses of 5 native units per unit, streamed over 1000 s *)
Definition hc3 : list cr_op := hc2 ++ [CBonus Root 5 8 (mkBonus 5 100 1100); CClose Root 3000; CSucceeded Root 3000].
Definition hc4 : list cr_op := hc3 ++ [CClaim 20 3000 5 8].
Definition hc5 : list cr_op := hc4 ++ [CSlotExpired Root 3000; CNotify true (Signed 0) 2 (Some true)].
(** failure *)
Definition hf3 : list cr_op := hc2 ++ [CClose Root 3000; CFailed Root 3000; CNotify true (Signed 0) 2 (Some true)].
