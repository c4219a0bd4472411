(** * CrowdProofs10: answered requests stay answered; what an account owns in total. *)
From Verif Require Import Base MapSum Ledger AmmModel StreamModel StreamSpec CrowdModel CrowdSpec CrowdProofs CrowdProofs2 CrowdProofs3 CrowdProofs4 CrowdProofs5 CrowdProofs6 CrowdProofs7.

Section wealth.
  Context (C : cr_cfg) (E : cr_env) (ct : Z -> bool) (HC : cr_cfg_ok C ct) (cts : list Z) (Hnd : NoDup cts) (Hcts : forall c, c ∈ cts <-> ct c = true).
  Let P := ce_pol E.
  Notation R := (cc_relay C). Notation A := (cc_acct C).

  Lemma own_cput con t k w x y : msum (fun key z => if bool_decide (key.2 = y) then z else 0) (cput con t k w x) =
    msum (fun key z => if bool_decide (key.2 = y) then z else 0) con + (if bool_decide (w = y) then x - default 0 (con !! (t, k, w)) else 0).
  Proof.
    unfold cput. destruct (con !! (t, k, w)) as [z|] eqn:Ez.
    - destruct (x =? 0) eqn:Ex.
      + assert (x = 0) by lia. subst x. rewrite (msum_delete _ con _ _ Ez). cbn. destruct (bool_decide (w = y)); lia.
      + rewrite (msum_insert _ con). rewrite Ez. cbn. destruct (bool_decide (w = y)); lia.
    - destruct (x =? 0) eqn:Ex.
      + rewrite delete_notin by auto. cbn. destruct (bool_decide (w = y)); lia.
      + rewrite msum_insert_new by auto. cbn. destruct (bool_decide (w = y)); lia.
  Qed.
  Lemma own_put s t k w x y : own (con_put s t k w x) y = own s y + (if bool_decide (w = y) then x - default 0 (c_con s !! (t, k, w)) else 0).
  Proof. unfold own. rewrite con_put_con. apply own_cput. Qed.
  Lemma own_upd s v w amt add k s1 v1 y : upd_con s v w amt add k = Ok (s1, v1) ->
    own s1 y = own s y + (if bool_decide (w = y) then (if add then amt else - amt) else 0) /\ c_str s1 = c_str s /\ c_reqs s1 = c_reqs s /\ c_qid s1 = c_qid s.
  Proof.
    intros H. apply upd_con_eff in H as (_ & -> & _). rewrite own_put. unfold entry. split; [|repeat split]. destruct (bool_decide (w = y)); [|lia]. destruct add; lia.
  Qed.
  Lemma own_mig s v w amt k1 k2 s1 v1 y : migrate_con s v w amt k1 k2 = Ok (s1, v1) -> own s1 y = own s y /\ c_str s1 = c_str s /\ c_reqs s1 = c_reqs s /\ c_qid s1 = c_qid s.
  Proof.
    intros H. unfold migrate_con in H. apply rbind_ok in H as ([s2 v2] & F1 & F2). apply (own_upd _ _ _ _ _ _ _ _ y) in F1 as (O1 & S1 & Q1 & N1). apply (own_upd _ _ _ _ _ _ _ _ y) in F2 as (O2 & S2 & Q2 & N2).
    repeat split; try congruence. rewrite O2, O1. destruct (bool_decide (w = y)); lia.
  Qed.

  (** balances of derivative tokens *)
  Lemma csum_ext L L' y : (forall c, ct c = true -> bal L' c y = bal L c y) -> lsum (fun c => bal L' c y) cts = lsum (fun c => bal L c y) cts.
  Proof.
    intros H. assert (Hx : forall c, c ∈ cts -> bal L' c y = bal L c y) by (intros c Hc; apply H, Hcts; auto). clear -Hx. induction cts as [|c l IH]; cbn; auto.
    unfold lsum in IH. rewrite IH; [|intros c' Hc; apply Hx; right; auto]. rewrite Hx; [auto|left].
  Qed.
  Lemma csum_add L L' y c0 d : ct c0 = true -> (forall c, bal L' c y = bal L c y + (if bool_decide (c = c0) then d else 0)) ->
    lsum (fun c => bal L' c y) cts = lsum (fun c => bal L c y) cts + d.
  Proof.
    intros H0 H. apply Hcts in H0. clear Hcts. revert H0 Hnd. induction cts as [|c l IH]; intros H0 Hn; [inversion H0|]. apply NoDup_cons in Hn as [N1 N2].
    cbn. unfold lsum in IH. rewrite (H c). apply elem_of_cons in H0 as [->|H0].
    - rewrite bool_decide_true by auto. assert (Hl : foldr (fun x acc => bal L' x y + acc) 0 l = foldr (fun x acc => bal L x y + acc) 0 l); [|lia].
      clear IH N2. induction l as [|c' l IH]; cbn; auto. rewrite IH by (intros Hx; apply N1; right; auto). rewrite (H c'), bool_decide_false; [lia|]. intros ->. apply N1. left.
    - rewrite IH by auto. rewrite bool_decide_false; [lia|]. intros ->. auto.
  Qed.

  Lemma ctR : ct R = false. Proof. apply HC. Qed.
  Definition W (s : cr) (y : Z) : Z := bal (c_led s) R y + own s y + lsum (fun c => bal (c_led s) c y) cts.
  (** changes of the ledger in the relay token only *)
  Lemma W_relay s s' y d : (forall a, bal (c_led s') a y = bal (c_led s) a y + (if bool_decide (a = R) then d else 0)) -> own s' y = own s y - d -> W s' y = W s y.
  Proof.
    intros H Ho. unfold W. rewrite (csum_ext (c_led s) (c_led s') y).
    - rewrite (H R), bool_decide_true by auto. lia.
    - intros c Hc. rewrite H. rewrite bool_decide_false; [lia|]. intros ->. rewrite ctR in Hc. discriminate Hc.
  Qed.
  Lemma W_tok s s' y c0 d : ct c0 = true -> (forall a, bal (c_led s') a y = bal (c_led s) a y + (if bool_decide (a = c0) then d else 0)) -> own s' y = own s y - d -> W s' y = W s y.
  Proof.
    intros H0 H Ho. unfold W. rewrite (csum_add (c_led s) (c_led s') y c0 d H0 H). rewrite (H R), bool_decide_false; [lia|]. intros Hx. rewrite <- Hx in H0. rewrite ctR in H0. discriminate H0.
  Qed.
  Lemma W_same s s' y : c_str s' = c_str s -> own s' y = own s y -> W s' y = W s y.
  Proof. intros H1 H2. unfold W, c_led. rewrite H1, H2. reflexivity. Qed.
  Lemma W_send s k r s' y : csend C E s k r = Ok s' -> y <> cc_xcm C -> W s' y = W s y.
  Proof.
    intros H Hy. apply csend_eff in H as (L & Hb & _ & ->). apply (W_relay _ _ _ 0); [|cbn; unfold own; cbn; lia]. intros a.
    pose proof (burn_spec _ _ _ _ _ _ Hb) as (_ & _ & B2 & _). change (c_led (set_c_qid _ _)) with L. rewrite B2. unfold at_. rewrite (bool_decide_false (a = R /\ y = cc_xcm C)) by tauto. destruct (bool_decide (a = R)); lia.
  Qed.
  Lemma W_contr s w k px amt s' y : do_contribute C E s w k px amt = Ok s' -> y <> cc_xcm C -> W s' y = W s y.
  Proof. unfold do_contribute. intros H Hy. bstep H u F. eapply W_send; eauto. Qed.
  Lemma W_loop l : forall n s v para s1 v1 y, migrate_loop C E l n s v para = Ok (s1, v1) -> y <> cc_xcm C -> W s1 y = W s y.
  Proof.
    induction l as [|[w amt] l IH]; intros n s v para s1 v1 y H Hy; cbn in H; [injection H as <- <-; auto|]. destruct n as [|n]; [injection H as <- <-; auto|].
    apply rbind_ok in H as ([s0 v0] & F1 & H). bstep H s2 F2. apply IH with (y := y) in H; auto. rewrite H. apply (W_contr _ _ _ _ _ _ y) in F2; auto. rewrite F2.
    apply (own_mig _ _ _ _ _ _ _ _ y) in F1 as (O1 & S1 & _). apply W_same; auto.
  Qed.
  Lemma at_y a w y x : at_ R w a y x = if bool_decide (a = R) then (if bool_decide (w = y) then x else 0) else 0.
  Proof. unfold at_. destruct (decide (a = R)), (decide (y = w)); repeat first [rewrite bool_decide_true by (auto; congruence)|rewrite bool_decide_false by (intuition congruence)]; auto. Qed.
  Lemma W_refund s w v k amt s1 v1 y : do_refund_for C E s w v k amt = Ok (s1, v1) -> y <> A -> W s1 y = W s y.
  Proof.
    unfold do_refund_for. intros H Hy. bstep H L E1. apply (own_upd _ _ _ _ _ _ _ _ y) in H as (O1 & S1 & _).
    apply (W_relay _ _ _ (if bool_decide (w = y) then amt else 0)); [|rewrite O1; change (own (set_c_led s L) y) with (own s y); destruct (bool_decide (w = y)); lia].
    intros a. unfold c_led at 1. rewrite S1. change (s_led (c_str (set_c_led s L))) with L. destruct (k =? KContr).
    - pose proof (mint_spec _ _ _ _ _ _ E1) as (_ & M2 & _). rewrite M2, at_y. reflexivity.
    - pose proof (transfer_spec _ _ _ _ _ _ _ _ E1) as (M2 & _). rewrite M2, !at_y. rewrite (bool_decide_false (A = y)) by auto. destruct (bool_decide (a = R)); lia.
  Qed.
  Lemma W_refund_loop l : forall n s v s1 v1 y, refund_loop C E l n s v = Ok (s1, v1) -> y <> A -> W s1 y = W s y.
  Proof.
    induction l as [|[k [w amt]] l IH]; intros n s v s1 v1 y H Hy; cbn in H; [injection H as <- <-; auto|]. destruct n as [|n]; [injection H as <- <-; auto|].
    apply rbind_ok in H as ([s0 v0] & F1 & H). apply IH with (y := y) in H; auto. rewrite H. eapply W_refund; eauto.
  Qed.
  Lemma W_put s key v y : W (put_vault s key v) y = W s y. Proof. reflexivity. Qed.

  Lemma W_claim s w para a b f s' y : cr_inv C E ct s -> do_claim_for C E s w para a b f = Ok s' -> y <> A -> y <> str_acct (cc_str C) -> W s' y = W s y.
  Proof.
    intros HI H Hy Hy2. pose proof H as H0. destruct (claim_exact C E ct HC _ _ _ _ _ _ _ HI H) as (v & Hv & _ & Hp & Hs & He & _ & _ & Hb & _).
    apply (W_tok _ _ _ (v_ctoken v) (if bool_decide (w = y) then entry s v KContr w else 0)).
    - apply (vo_ct _ _ _ _ (cs_vault _ _ _ (proj1 (ci_good _ _ _ _ HI)) _ _ Hv)).
    - intros a0. rewrite Hb. unfold at_. rewrite (bool_decide_false (a0 = cc_native C /\ y = A)), (bool_decide_false (a0 = cc_native C /\ y = str_acct (cc_str C))) by tauto.
      destruct (decide (a0 = v_ctoken v)), (decide (y = w)); repeat first [rewrite bool_decide_true by (auto; congruence)|rewrite bool_decide_false by (intuition congruence)]; lia.
    - assert (Hcon : c_con s' = cput (c_con s) (v_trie v) KContr w 0).
      { unfold do_claim_for in H0. bstep H0 c Hct. rewrite Hv in H0. cbn [ok_or rbind] in H0. bstep H0 u1 E1. bstep H0 u2 E2. bstep H0 L E3.
        destruct (bonus_amount C s a b (con_get s (v_trie v) KContr w) =? 0); [injection H0 as <-; reflexivity|]. bstep H0 st E4. injection H0 as <-. reflexivity. }
      unfold own. rewrite Hcon, own_cput. unfold entry. destruct (bool_decide (w = y)); lia.
  Qed.
  Lemma W_redeem s w para a b amt s' y : cst C ct s -> redeem C E s w para a b amt = Ok s' -> W s' y = W s y.
  Proof.
    intros Hg H. unfold redeem in H. bstep H c Hct. bstep H v Hv. bstep H u1 E1. bstep H u2 E2. bstep H c0 E3. bstep H L E4. bstep H L2 E5. injection H as <-.
    pose proof (burn_spec _ _ _ _ _ _ E4) as (_ & _ & B2 & _). pose proof (mint_spec _ _ _ _ _ _ E5) as (_ & M2 & _).
    assert (Hc : ct c = true).
    { destruct (key_eq _ _ _ _ _ _ _ Hv Hg) as [Ka Kb]. pose proof (cs_vault _ _ _ Hg _ _ Hv) as Hok. pose proof (vo_ctok _ _ _ _ Hok) as X. rewrite Ka, Kb in X. rewrite X in Hct. injection Hct as <-. apply (vo_ct _ _ _ _ Hok). }
    set (d := if bool_decide (w = y) then amt else 0).
    assert (X1 : W (set_c_led s L) y = W s y - d).
    { unfold W. change (c_led (set_c_led s L)) with L. change (own (set_c_led s L) y) with (own s y).
      rewrite (csum_add (c_led s) L y c (- d) Hc).
      - assert (c <> R) by (intros ->; rewrite ctR in Hc; discriminate Hc). rewrite B2. unfold at_. rewrite bool_decide_false by (intros [? _]; congruence). lia.
      - intros a0. rewrite B2. unfold at_, d. destruct (decide (a0 = c)), (decide (y = w)); repeat first [rewrite bool_decide_true by (auto; congruence)|rewrite bool_decide_false by (intuition congruence)]; lia. }
    rewrite W_put. unfold W at 1. change (c_led (set_c_led s L2)) with L2. change (own (set_c_led s L2) y) with (own (set_c_led s L) y).
    rewrite (csum_ext L L2 y).
    - unfold W at 1 in X1. change (c_led (set_c_led s L)) with L in X1. rewrite M2, at_y, bool_decide_true by auto. fold d. lia.
    - intros c1 Hc1. rewrite M2, at_y, bool_decide_false; [lia|]. intros ->. rewrite ctR in Hc1. discriminate Hc1.
  Qed.

  Lemma step_W s op s' y : cr_inv C E ct s -> cr_step C E s op = Ok s' -> cr_op_ok C ct op ->
    y <> A -> y <> cc_xcm C -> y <> str_acct (cc_str C) ->
    match op with CStr _ => True | CRedeemLend _ _ _ w _ _ _ _ => w <> y -> y <> cc_loans C -> W s' y = W s y | _ => W s' y = W s y end.
  Proof.
    intros HI H Ho Hy1 Hy2 Hy3. pose proof (ci_good _ _ _ _ HI) as [Hg _].
    assert (Hph : forall s para p1 p2 s', try_phase s para p1 p2 = Ok s' -> W s' y = W s y).
    { intros s0 para p1 p2 s1 H1. unfold try_phase in H1. bstep H1 kv E1. bstep H1 u2 E2. injection H1 as <-. reflexivity. }
    assert (Hwd : forall s para p1 p2 s', try_withdraw C E s para p1 p2 = Ok s' -> W s' y = W s y).
    { intros s0 para p1 p2 s1 H1. unfold try_withdraw in H1. bstep H1 kv E1. bstep H1 u2 E2. bstep H1 s2 E3. injection H1 as <-. unfold do_withdraw in E3. rewrite W_put. eapply W_send; eauto. }
    destruct op; cbn [cr_step] in H; cbn [cr_op_ok] in Ho; try exact I.
    - unfold create_vault in H. bstep H u0 E0. bstep H u1 E1. bstep H u2 E2. bstep H u3 E3. bstep H u4 E4. bstep H u5 E5. bstep H u6 E6. bstep H u7 E7. injection H as <-. reflexivity.
    - unfold update_vault in H. bstep H u0 E0. bstep H kv E1. bstep H u2 E2. bstep H u3 E3. injection H as <-. reflexivity.
    - unfold open_vault in H. bstep H u0 E0. eauto.
    - unfold contribute in H. bstep H kv E0. bstep H u1 E1. bstep H u2 E2. bstep H u3 E3. bstep H u4 E4. bstep H u5 E5. bstep H t E6. bstep H t' E7. bstep H u6 E8. bstep H L E9.
      pose proof (transfer_spec _ _ _ _ _ _ _ _ E9) as (T1 & _).
      assert (HT : forall k s2 v2, upd_con (set_c_led s L) kv.2 w amt true k = Ok (s2, v2) -> W s2 y = W s y).
      { intros k s2 v2 F. apply (own_upd _ _ _ _ _ _ _ _ y) in F as (O1 & S1 & _). apply (W_relay _ _ _ (- (if bool_decide (w = y) then amt else 0))).
        - intros a. unfold c_led at 1. rewrite S1. change (s_led (c_str (set_c_led s L))) with L. rewrite T1, !at_y. rewrite (bool_decide_false (A = y)) by auto. destruct (bool_decide (a = R)); lia.
        - rewrite O1. change (own (set_c_led s L) y) with (own s y). destruct (bool_decide (w = y)); lia. }
      destruct (bool_decide (v_phase kv.2 = Contributing)); apply rbind_ok in H as ([s2 v2] & F1 & H).
      + bstep H s3 F2. injection H as <-. rewrite W_put. apply (W_contr _ _ _ _ _ _ y) in F2; auto. rewrite F2. eauto.
      + injection H as <-. rewrite W_put. eauto.
    - unfold set_vrf in H. bstep H u0 E0. injection H as <-. reflexivity.
    - unfold close_vault in H. bstep H u0 E0. eauto.
    - unfold reopen_vault in H. bstep H u0 E0. eauto.
    - unfold auction_succeeded in H. bstep H u0 E0. eauto.
    - unfold auction_failed in H. bstep H u0 E0. eauto.
    - eapply W_claim; eauto.
    - unfold withdraw_for in H. bstep H v Hv. bstep H u1 E1. bstep H u2 E2. bstep H c0 E3. bstep H L E4. injection H as <-. rewrite W_put.
      pose proof (mint_spec _ _ _ _ _ _ E4) as (_ & M2 & _). apply (W_relay _ _ _ (if bool_decide (w = y) then con_get s (v_trie v) KContr w else 0)).
      + intros a. change (bal L a y = bal (c_led s) a y + (if bool_decide (a = R) then (if bool_decide (w = y) then con_get s (v_trie v) KContr w else 0) else 0)). rewrite M2, at_y. reflexivity.
      + change (own (con_put s (v_trie v) KContr w 0) y = own s y - (if bool_decide (w = y) then con_get s (v_trie v) KContr w else 0)). rewrite own_put. unfold con_get. destruct (bool_decide (w = y)); lia.
    - eapply W_redeem; eauto.
    - unfold slot_expired in H. bstep H u0 E0. eauto.
    - unfold migrate_pending in H. bstep H u0 E0. bstep H kv E1. bstep H u2 E2. bstep H u3 E3. apply rbind_ok in H as ([s1 v1] & F1 & H). injection H as <-. rewrite W_put. eapply W_loop; eauto.
    - unfold notification in H. bstep H u E0. destruct r as [ok|]; [|injection H as <-; reflexivity].
      destruct (c_reqs s !! q) as [r|] eqn:Eq; [|injection H as <-; reflexivity]. unfold notified in H. apply rbind_ok in H as (s1 & H1 & H). injection H as <-.
      assert (HW : W s1 y = W s y); [|destruct ok; rewrite <- HW; reflexivity]. destruct r.
      + bstep H1 v Hv. destruct ok.
        * bstep H1 L E1. apply rbind_ok in H1 as ([s2 v2] & F1 & H1). injection H1 as <-. rewrite W_put. apply (own_mig _ _ _ _ _ _ _ _ y) in F1 as (O1 & S1 & _).
          pose proof (burn_spec _ _ _ _ _ _ E1) as (_ & _ & B2 & _). apply (W_relay _ _ _ 0); [|rewrite O1; change (own (set_c_led s L) y) with (own s y); lia].
          intros a. unfold c_led at 1. rewrite S1. change (s_led (c_str (set_c_led s L))) with L. rewrite B2, at_y. rewrite (bool_decide_false (A = y)) by auto. destruct (bool_decide (a = R)); lia.
        * bstep H1 L E1. apply rbind_ok in H1 as ([s2 v2] & F1 & H1). injection H1 as <-. rewrite W_put. apply (own_upd _ _ _ _ _ _ _ _ y) in F1 as (O1 & S1 & _).
          pose proof (transfer_spec _ _ _ _ _ _ _ _ E1) as (B2 & _). apply (W_relay _ _ _ (if bool_decide (who = y) then amt else 0)).
          -- intros a. unfold c_led at 1. rewrite S1. change (s_led (c_str (set_c_led s L))) with L. rewrite B2, !at_y. rewrite (bool_decide_false (A = y)) by auto. destruct (bool_decide (a = R)); lia.
          -- rewrite O1. change (own (set_c_led s L) y) with (own s y). destruct (bool_decide (who = y)); lia.
      + destruct ok; [|injection H1 as <-; auto]. bstep H1 v Hv. injection H1 as <-. reflexivity.
    - unfold refund in H. bstep H u0 E0. bstep H v Hv. bstep H u1 E1. apply rbind_ok in H as ([s1 v1] & F1 & H). injection H as <-. rewrite W_put. eapply W_refund_loop; eauto.
    - unfold dissolve_vault in H. bstep H u0 E0. bstep H v Hv. bstep H u1 E1. bstep H u2 E2. bstep H t E3. bstep H u3 E4. injection H as <-. destruct (c_leases s !! para) as [p|]; [destruct (bool_decide (p = (ls, le)))|]; reflexivity.
    - unfold refund_for in H. bstep H u0 E0. bstep H v Hv. bstep H u1 E1. bstep H u2 E2. apply rbind_ok in H as ([s1 v1] & F1 & H). injection H as <-. rewrite W_put. eapply W_refund; eauto.
    - unfold update_proxy in H. bstep H u0 E0. injection H as <-. reflexivity.
    - unfold update_bonus in H. bstep H u0 E0. bstep H u1 E1. bstep H u2 E2. injection H as <-. reflexivity.
    - unfold force_claim in H. bstep H u0 E0. eapply W_claim; eauto.
    - intros Hw Hl. unfold redeem_and_lend in H. bstep H u0 E0. bstep H u1 E1. bstep H s1 E2. bstep H u2 E3. bstep H L E4. injection H as <-.
      apply (W_redeem _ _ _ _ _ _ _ y) in E2; auto. rewrite <- E2. pose proof (transfer_spec _ _ _ _ _ _ _ _ E4) as (B2 & _). apply (W_relay _ _ _ 0); [|change (own (set_c_led s1 L) y) with (own s1 y); lia].
      intros a. change (c_led (set_c_led s1 L)) with L. rewrite B2, !at_y. rewrite (bool_decide_false (w = y)), (bool_decide_false (cc_loans C = y)) by auto. destruct (bool_decide (a = R)); lia.
    - unfold set_xfee in H. bstep H u0 E0. injection H as <-. reflexivity.
    - injection H as <-. reflexivity.
  Qed.

  (** ** requests: identifiers are fresh, an answered one never comes back *)
  Definition rq (s s' : cr) : Prop := c_qid s <= c_qid s' /\ forall q, q < c_qid s -> c_reqs s !! q = None -> c_reqs s' !! q = None.
  Lemma rq_refl s s' : c_qid s' = c_qid s -> c_reqs s' = c_reqs s -> rq s s'. Proof. intros H1 H2. split; [lia|]. rewrite H2. auto. Qed.
  Lemma rq_trans s1 s2 s3 : rq s1 s2 -> rq s2 s3 -> rq s1 s3. Proof. intros [A1 A2] [B1 B2]. split; [lia|]. intros q Hq Hn. apply B2; [lia|]. auto. Qed.
  Lemma rq_send s k r s' : csend C E s k r = Ok s' -> rq s s'.
  Proof. intros H. apply csend_eff in H as (L & _ & _ & ->). split; [cbn; lia|]. intros q Hq Hn. cbn. rewrite lookup_insert_ne by lia. auto. Qed.
  Lemma rq_loop l : forall n s v para s1 v1, migrate_loop C E l n s v para = Ok (s1, v1) -> rq s s1.
  Proof.
    induction l as [|[w amt] l IH]; intros n s v para s1 v1 H; cbn in H; [injection H as <- <-; apply rq_refl; auto|]. destruct n as [|n]; [injection H as <- <-; apply rq_refl; auto|].
    apply rbind_ok in H as ([s0 v0] & F1 & H). bstep H s2 F2. apply IH in H. eapply rq_trans; [|exact H]. unfold do_contribute in F2. bstep F2 u F. apply rq_send in F2.
    apply (own_mig _ _ _ _ _ _ _ _ 0) in F1 as (_ & _ & Q1 & N1). eapply rq_trans; [apply rq_refl; eauto|exact F2].
  Qed.
  Lemma rq_refund_loop l : forall n s v s1 v1, refund_loop C E l n s v = Ok (s1, v1) -> rq s s1.
  Proof.
    induction l as [|[k [w amt]] l IH]; intros n s v s1 v1 H; cbn in H; [injection H as <- <-; apply rq_refl; auto|]. destruct n as [|n]; [injection H as <- <-; apply rq_refl; auto|].
    apply rbind_ok in H as ([s0 v0] & F1 & H). apply IH in H. eapply rq_trans; [|exact H]. unfold do_refund_for in F1. bstep F1 L E1. apply (own_upd _ _ _ _ _ _ _ _ 0) in F1 as (_ & _ & Q1 & N1). apply rq_refl; auto.
  Qed.
  Lemma step_rq s op s' : cr_step C E s op = Ok s' -> rq s s'.
  Proof.
    intros H.
    assert (Hph : forall s para p1 p2 s', try_phase s para p1 p2 = Ok s' -> rq s s').
    { intros s0 para p1 p2 s1 H1. unfold try_phase in H1. bstep H1 kv E1. bstep H1 u2 E2. injection H1 as <-. apply rq_refl; auto. }
    assert (Hwd : forall s para p1 p2 s', try_withdraw C E s para p1 p2 = Ok s' -> rq s s').
    { intros s0 para p1 p2 s1 H1. unfold try_withdraw in H1. bstep H1 kv E1. bstep H1 u2 E2. bstep H1 s2 E3. injection H1 as <-. unfold do_withdraw in E3. apply rq_send in E3. eapply rq_trans; [exact E3|apply rq_refl; auto]. }
    assert (Hclaim : forall w para a b f s', do_claim_for C E s w para a b f = Ok s' -> rq s s').
    { intros w para a b f s1 H1. unfold do_claim_for in H1. bstep H1 c0 Hct. bstep H1 v Hv. bstep H1 u1 E1. bstep H1 u2 E2. bstep H1 L E3.
      destruct (bonus_amount C s a b (con_get s (v_trie v) KContr w) =? 0); [injection H1 as <-; apply rq_refl; auto|]. bstep H1 st E4. injection H1 as <-. apply rq_refl; auto. }
    assert (Hred : forall w para a b amt s', redeem C E s w para a b amt = Ok s' -> rq s s').
    { intros w para a b amt s1 H1. unfold redeem in H1. bstep H1 ctoken Hct. bstep H1 v Hv. bstep H1 u1 E1. bstep H1 u2 E2. bstep H1 c0 E3. bstep H1 L E4. bstep H1 L2 E5. injection H1 as <-. apply rq_refl; auto. }
    destruct op; cbn [cr_step] in H.
    - unfold create_vault in H. bstep H u0 E0. bstep H u1 E1. bstep H u2 E2. bstep H u3 E3. bstep H u4 E4. bstep H u5 E5. bstep H u6 E6. bstep H u7 E7. injection H as <-. apply rq_refl; auto.
    - unfold update_vault in H. bstep H u0 E0. bstep H kv E1. bstep H u2 E2. bstep H u3 E3. injection H as <-. apply rq_refl; auto.
    - unfold open_vault in H. bstep H u0 E0. eauto.
    - unfold contribute in H. bstep H kv E0. bstep H u1 E1. bstep H u2 E2. bstep H u3 E3. bstep H u4 E4. bstep H u5 E5. bstep H t E6. bstep H t' E7. bstep H u6 E8. bstep H L E9.
      destruct (bool_decide (v_phase kv.2 = Contributing)); apply rbind_ok in H as ([s2 v2] & F1 & H).
      + bstep H s3 F2. injection H as <-. unfold do_contribute in F2. bstep F2 u F. apply rq_send in F2. apply (own_upd _ _ _ _ _ _ _ _ 0) in F1 as (_ & _ & Q1 & N1).
        eapply rq_trans; [|eapply rq_trans; [exact F2|apply rq_refl; auto]]. apply rq_refl; auto.
      + injection H as <-. apply (own_upd _ _ _ _ _ _ _ _ 0) in F1 as (_ & _ & Q1 & N1). apply rq_refl; auto.
    - unfold set_vrf in H. bstep H u0 E0. injection H as <-. apply rq_refl; auto.
    - unfold close_vault in H. bstep H u0 E0. eauto.
    - unfold reopen_vault in H. bstep H u0 E0. eauto.
    - unfold auction_succeeded in H. bstep H u0 E0. eauto.
    - unfold auction_failed in H. bstep H u0 E0. eauto.
    - eauto.
    - unfold withdraw_for in H. bstep H v Hv. bstep H u1 E1. bstep H u2 E2. bstep H c0 E3. bstep H L E4. injection H as <-. apply rq_refl; auto.
    - eauto.
    - unfold slot_expired in H. bstep H u0 E0. eauto.
    - unfold migrate_pending in H. bstep H u0 E0. bstep H kv E1. bstep H u2 E2. bstep H u3 E3. apply rbind_ok in H as ([s1 v1] & F1 & H). injection H as <-. apply rq_loop in F1. eapply rq_trans; [exact F1|apply rq_refl; auto].
    - unfold notification in H. bstep H u E0. destruct r as [ok|]; [|injection H as <-; apply rq_refl; auto].
      destruct (c_reqs s !! q) as [r|] eqn:Eq; [|injection H as <-; apply rq_refl; auto]. unfold notified in H. apply rbind_ok in H as (s1 & H1 & H). injection H as <-.
      assert (HW : c_reqs s1 = c_reqs s /\ c_qid s1 = c_qid s).
      { destruct r.
        - bstep H1 v Hv. destruct ok.
          + bstep H1 L E1. apply rbind_ok in H1 as ([s2 v2] & F1 & H1). injection H1 as <-. apply (own_mig _ _ _ _ _ _ _ _ 0) in F1 as (_ & _ & Q1 & N1). auto.
          + bstep H1 L E1. apply rbind_ok in H1 as ([s2 v2] & F1 & H1). injection H1 as <-. apply (own_upd _ _ _ _ _ _ _ _ 0) in F1 as (_ & _ & Q1 & N1). auto.
        - destruct ok; [|injection H1 as <-; auto]. bstep H1 v Hv. injection H1 as <-. auto. }
      destruct HW as [Q1 N1]. destruct ok; [|apply rq_refl; auto]. split; [cbn; lia|]. intros q' Hq' Hn. cbn. rewrite Q1. destruct (decide (q' = q)) as [->|]; [apply lookup_delete|rewrite lookup_delete_ne; auto].
    - unfold refund in H. bstep H u0 E0. bstep H v Hv. bstep H u1 E1. apply rbind_ok in H as ([s1 v1] & F1 & H). injection H as <-. apply rq_refund_loop in F1. eapply rq_trans; [exact F1|apply rq_refl; auto].
    - unfold dissolve_vault in H. bstep H u0 E0. bstep H v Hv. bstep H u1 E1. bstep H u2 E2. bstep H t E3. bstep H u3 E4. injection H as <-. destruct (c_leases s !! para) as [p|]; [destruct (bool_decide (p = (ls, le)))|]; apply rq_refl; auto.
    - unfold refund_for in H. bstep H u0 E0. bstep H v Hv. bstep H u1 E1. bstep H u2 E2. apply rbind_ok in H as ([s1 v1] & F1 & H). injection H as <-. unfold do_refund_for in F1. bstep F1 L E3. apply (own_upd _ _ _ _ _ _ _ _ 0) in F1 as (_ & _ & Q1 & N1). apply rq_refl; auto.
    - unfold update_proxy in H. bstep H u0 E0. injection H as <-. apply rq_refl; auto.
    - unfold update_bonus in H. bstep H u0 E0. bstep H u1 E1. bstep H u2 E2. injection H as <-. apply rq_refl; auto.
    - unfold force_claim in H. bstep H u0 E0. eauto.
    - unfold redeem_and_lend in H. bstep H u0 E0. bstep H u1 E1. bstep H s1 E2. bstep H u2 E3. bstep H L E4. injection H as <-. apply Hred in E2. eapply rq_trans; [exact E2|apply rq_refl; auto].
    - unfold set_xfee in H. bstep H u0 E0. injection H as <-. apply rq_refl; auto.
    - injection H as <-. apply rq_refl; auto.
    - bstep H st E0. injection H as <-. apply rq_refl; auto.
  Qed.
  Lemma history_rq s ops s' : cr_history C E ct s ops s' -> rq s s'.
  Proof.
    intros H. induction H as [|s o os s' Ho H IH]; [apply rq_refl; auto|]. eapply rq_trans; [|exact IH]. unfold cr_exec. destruct (cr_step C E s o) as [s1|?|] eqn:Es; [eapply step_rq; eauto|apply rq_refl; auto..].
  Qed.
  Lemma history_reach s ops s' : cr_history C E ct s ops s' -> cr_reachable C E ct s -> cr_reachable C E ct s'.
  Proof. intros H. induction H as [|s o os s' Ho H IH]; auto. intros Hr. apply IH. constructor; auto. Qed.
End wealth.
