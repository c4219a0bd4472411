(** * CrowdProps2: property theorem C104 (crowdloans: administration is exact). *)
From Verif Require Import Base MapSum Ledger AmmModel AmmEx AmmProofs5 StreamModel StreamSpec CrowdModel CrowdSpec CrowdProofs CrowdProofs2 CrowdProofs3 CrowdProofs4 CrowdProofs5 CrowdEx.

(** The administrator of a role: the configured origin or an automation member. *)
Definition admin (C : cr_cfg) (r : role) (o : origin) : Prop := cc_org C r o = true \/ exists w, o = Signed w /\ cc_member C w = true.
Lemma ensure_role_iff C r o : ensure_role C r o = Ok tt <-> admin C r o.
Proof.
  unfold ensure_role, admin. destruct (cc_org C r o) eqn:Eo; [tauto|]. destruct o as [|w]; cbn.
  - split; [discriminate|]. intros [H|(w & H & _)]; discriminate.
  - destruct (cc_member C w) eqn:Em; cbn; split; try discriminate; try tauto; eauto.
    intros [H|(w' & H & Hm)]; [discriminate|]. injection H as <-. congruence.
Qed.
(** Everything but the vaults, leases and tokens; everything but one administrative value. *)
Definition cr_rest (s : cr) := (c_str s, c_reqs s, c_con s, c_qid s, c_rblock s, c_xfee s).

(** ** C104.  A vault is created empty and pending, with the given limits, for a fresh (para, lease), by the administrator, and
    becomes the current one; exactly the calls that meet the conditions succeed. *)
Theorem C104_create_accepted C E s o para c a b px cap e :
  (exists s', cr_step C E s (CCreate o para c a b px cap e) = Ok s') <->
  admin C RCreate o /\ cap <> 0 /\ a <= b /\ (forall c', c_ctok s !! (a, b) = Some c' -> c' = c) /\ c_vaults s !! (para, a, b) = None /\
  (forall x y v, c_leases s !! para = Some (x, y) -> c_vaults s !! (para, x, y) = Some v -> v_phase v = Failed \/ v_phase v = Expired) /\
  c_rblock s <= e /\ c_next s < U32MAX.
Proof.
  cbn [cr_step]. unfold create_vault. rewrite <- ensure_role_iff. split.
  - intros [s' H]. destruct (ensure_role C RCreate o) as [[]| |] eqn:Er; try discriminate H. cbn [rbind] in H.
    bstep H u1 E1. bstep H u2 E2. bstep H u3 E3. bstep H u4 E4. bstep H u5 E5. bstep H u6 E6. bstep H u7 E7.
    split; [auto|]. split; [lia|]. split; [lia|]. split; [intros c' Hc; rewrite Hc in E3; lia|].
    split. { destruct (c_vaults s !! (para, a, b)); [|reflexivity]. rewrite bool_decide_true in E4 by eauto. discriminate. }
    split; [|lia]. intros x y v Hl Hv. unfold current_vault in E5. rewrite Hl, Hv in E5. apply bool_decide_eq_true in E5. exact E5.
  - intros (Er & H1 & H2 & H3 & H4 & H5 & H6 & H7). rewrite Er. cbn [rbind]. replace (negb (cap =? 0)) with true by lia. replace (a <=? b) with true by lia. cbn [ensure rbind].
    replace (match c_ctok s !! (a, b) with Some c0 => c0 =? c | None => true end) with true. 2:{ destruct (c_ctok s !! (a, b)) as [c'|]; [|auto]. rewrite (H3 c' eq_refl). lia. }
    cbn [ensure rbind]. rewrite H4, bool_decide_false by (intros [? ?]; discriminate). cbn [negb ensure rbind].
    replace (match current_vault s para with Some (_, v) => bool_decide (v_phase v = Failed \/ v_phase v = Expired) | None => true end) with true.
    2:{ unfold current_vault. destruct (c_leases s !! para) as [[x y]|] eqn:El; [|auto]. destruct (c_vaults s !! (para, x, y)) as [v|] eqn:Ev; [|auto]. symmetry. apply bool_decide_eq_true. eauto. }
    cbn [ensure rbind]. replace (c_rblock s <=? e) with true by lia. replace (c_next s + 1 <=? U32MAX) with true by lia. cbn [ensure rbind]. eauto.
Qed.
Print Assumptions C104_create_accepted.
Theorem C104_create_exact C E s o para c a b px cap e s' : cr_step C E s (CCreate o para c a b px cap e) = Ok s' ->
  c_vaults s' = <[(para, a, b) := mkVault c Pending 0 0 0 px cap e (c_next s) a b]> (c_vaults s) /\
  c_ctok s' = <[(a, b) := c]> (c_ctok s) /\ c_leases s' = <[para := (a, b)]> (c_leases s) /\ c_next s' = c_next s + 1 /\
  cr_rest s' = cr_rest s /\ c_vrf s' = c_vrf s /\ c_proxy s' = c_proxy s /\ c_bonus s' = c_bonus s.
Proof.
  cbn [cr_step]. unfold create_vault. intros H. bstep H u0 E0. bstep H u1 E1. bstep H u2 E2. bstep H u3 E3. bstep H u4 E4. bstep H u5 E5. bstep H u6 E6. bstep H u7 E7.
  injection H as <-. auto 12.
Qed.
Print Assumptions C104_create_exact.
(** [update_vault] changes just the given limits of the current vault. *)
Theorem C104_update_exact C E ct s o para cap e px s' : cr_cfg_ok C ct -> cr_reachable C E ct s -> cr_step C E s (CUpdate o para cap e px) = Ok s' ->
  exists a b v, c_leases s !! para = Some (a, b) /\ c_vaults s !! (para, a, b) = Some v /\ cap <> Some 0 /\ (forall x, e = Some x -> c_rblock s <= x) /\
    c_vaults s' = <[(para, a, b) := mkVault (v_ctoken v) (v_phase v) (v_contr v) (v_pend v) (v_fly v) (default (v_proxy v) px) (default (v_cap v) cap) (default (v_end v) e) (v_trie v) a b]> (c_vaults s) /\
    c_ctok s' = c_ctok s /\ c_leases s' = c_leases s /\ c_next s' = c_next s /\
    cr_rest s' = cr_rest s /\ c_vrf s' = c_vrf s /\ c_proxy s' = c_proxy s /\ c_bonus s' = c_bonus s.
Proof.
  intros HC Hr. pose proof (proj1 (ci_good _ _ _ _ (reachable_inv C E ct HC s Hr))) as Hg.
  cbn [cr_step]. unfold update_vault. intros H. bstep H u0 E0. bstep H kv E1. bstep H u2 E2. bstep H u3 E3. injection H as <-.
  unfold current_vault in E1. destruct (c_leases s !! para) as [[a b]|] eqn:El; [|discriminate E1]. destruct (c_vaults s !! (para, a, b)) as [v|] eqn:Ev; [|discriminate E1]. injection E1 as <-.
  destruct (key_eq _ _ _ _ _ _ _ Ev Hg) as [Ka Kb]. exists a, b, v. cbn [snd]. rewrite Ka, Kb.
  split; [auto|]. split; [auto|]. split; [intros ->; cbn in E2; discriminate E2|]. split; [intros x ->; lia|]. auto 12.
Qed.
Print Assumptions C104_update_exact.
(** The bonus, the proxy account, the VRF flag and the message fees: each call sets just its value. *)
Theorem C104_setters_exact C E s s' :
  (forall o a b x, cr_step C E s (CBonus o a b x) = Ok s' <-> admin C RUpdate o /\ a <= b /\ bo_start x < bo_end x /\ s' = set_c_bonus s (<[(a, b) := x]> (c_bonus s))) /\
  (forall o w, cr_step C E s (CProxy o w) = Ok s' <-> cc_org C RProxy o = true /\ s' = set_c_proxy s (Some w)) /\
  (forall o x, cr_step C E s (CVrf o x) = Ok s' <-> admin C RVrf o /\ s' = set_c_vrf s x) /\
  (forall k x, cr_step C E s (CXFee k x) = Ok s' <-> x <> 0 /\ s' = set_c_xfee s (<[k := x]> (c_xfee s))).
Proof.
  cbn [cr_step]. unfold update_bonus, update_proxy, set_vrf, set_xfee. split; [|split; [|split]].
  - intros o a b x. rewrite <- ensure_role_iff. destruct (ensure_role C RUpdate o) as [[]| |]; cbn [rbind]; [|split; [discriminate|intros [? _]; discriminate]..].
    destruct (a <=? b) eqn:E1; cbn [ensure rbind]; [|split; [discriminate|lia]]. destruct (bo_start x <? bo_end x) eqn:E2; cbn [ensure rbind]; [|split; [discriminate|lia]].
    split; [intros H; injection H as <-; repeat split; lia|]. intros (_ & _ & _ & ->). reflexivity.
  - intros o w. destruct (cc_org C RProxy o); cbn [ensure rbind]; [|split; [discriminate|intros [? _]; discriminate]]. split; [intros H; injection H as <-; auto|]. intros (_ & ->). reflexivity.
  - intros o x. rewrite <- ensure_role_iff. destruct (ensure_role C RVrf o) as [[]| |]; cbn [rbind]; [|split; [discriminate|intros [? _]; discriminate]..]. split; [intros H; injection H as <-; auto|]. intros (_ & ->). reflexivity.
  - intros k x. destruct (x =? 0) eqn:E1; cbn [negb ensure rbind]; [split; [discriminate|lia]|]. split; [intros H; injection H as <-; split; [lia|auto]|]. intros (_ & ->). reflexivity.
Qed.
Print Assumptions C104_setters_exact.
Example C104_example : cr_reachable cxC cxE cxt (cxrun hc0) /\ admin cxC RCreate Root /\ okb (cr_step cxC cxE (cxrun hc0) (CCreate Root 3001 200 5 8 true 70 600)) (fun s' =>
    someb (c_vaults s' !! (3001, 5, 8)) (fun v => (v_cap v =? 70) && (v_end v =? 600) && (v_trie v =? 1))) = true /\
  okb (cr_step cxC cxE (cxrun hc0) (CUpdate Root 3000 (Some 70000) None (Some false))) (fun s' => someb (c_vaults s' !! (3000, 5, 8)) (fun v => (v_cap v =? 70000) && (v_end v =? 500) && (v_pend v =? 1000))) = true.
Proof. split; [apply cxrun_reach; vm_compute; reflexivity|]. split; [left; reflexivity|vm_compute; auto]. Qed.
