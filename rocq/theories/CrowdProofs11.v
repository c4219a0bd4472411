(** * CrowdProofs11: who asks the relay chain for a withdrawal, and when. *)
From Verif Require Import Base MapSum Ledger AmmModel StreamModel StreamSpec CrowdModel CrowdSpec CrowdProofs CrowdProofs2 CrowdProofs3 CrowdProofs4 CrowdProofs5 CrowdProofs6 CrowdProofs7 CrowdProofs10.
Section wreq.
  Context (C : cr_cfg) (E : cr_env) (ct : Z -> bool) (HC : cr_cfg_ok C ct) (cts : list Z) (Hnd : NoDup cts) (Hcts : forall c, c ∈ cts <-> ct c = true).
  Let P := ce_pol E.
  Notation R := (cc_relay C). Notation A := (cc_acct C).

  Definition wq (s s' : cr) : Prop := forall q para a b x p, c_reqs s' !! q = Some (QWithdraw para a b x p) -> c_reqs s !! q = Some (QWithdraw para a b x p).
  Lemma wq_refl s s' : c_qid s' = c_qid s -> c_reqs s' = c_reqs s -> wq s s'. Proof. intros _ E1 q para a b x p. rewrite E1. auto. Qed.
  Lemma wq_trans s1 s2 s3 : wq s1 s2 -> wq s2 s3 -> wq s1 s3. Proof. intros H1 H2 q para a b x p H. apply H1, H2, H. Qed.
  Lemma wq_send s k r s' : (forall para a b x p, r <> QWithdraw para a b x p) -> csend C E s k r = Ok s' -> wq s s'.
  Proof.
    intros Hr H. apply csend_eff in H as (L & _ & _ & ->). intros q para a b x p Hq. cbn in Hq. destruct (decide (q = c_qid s)) as [->|Ne].
    - rewrite lookup_insert in Hq. injection Hq as Hq. destruct (Hr _ _ _ _ _ Hq).
    - rewrite lookup_insert_ne in Hq by auto. exact Hq.
  Qed.
  Lemma wq_sendc s k para a b w x s' : csend C E s k (QContribute para a b w x) = Ok s' -> wq s s'.
  Proof. apply wq_send. intros. discriminate. Qed.
  Lemma wq_loop l : forall n s v para s1 v1, migrate_loop C E l n s v para = Ok (s1, v1) -> wq s s1.
  Proof.
    induction l as [|[w amt] l IH]; intros n s v para s1 v1 H; cbn in H; [injection H as <- <-; apply wq_refl; auto|]. destruct n as [|n]; [injection H as <- <-; apply wq_refl; auto|].
    apply rbind_ok in H as ([s0 v0] & F1 & H). bstep H s2 F2. apply IH in H. eapply wq_trans; [|exact H]. unfold do_contribute in F2. bstep F2 u F. apply wq_sendc in F2.
    apply (own_mig _ _ _ _ _ _ _ _ 0) in F1 as (_ & _ & Q1 & N1). eapply wq_trans; [apply wq_refl; eauto|exact F2].
  Qed.
  Lemma wq_refund_loop l : forall n s v s1 v1, refund_loop C E l n s v = Ok (s1, v1) -> wq s s1.
  Proof.
    induction l as [|[k [w amt]] l IH]; intros n s v s1 v1 H; cbn in H; [injection H as <- <-; apply wq_refl; auto|]. destruct n as [|n]; [injection H as <- <-; apply wq_refl; auto|].
    apply rbind_ok in H as ([s0 v0] & F1 & H). apply IH in H. eapply wq_trans; [|exact H]. unfold do_refund_for in F1. bstep F1 L E1. apply (own_upd _ _ _ _ _ _ _ _ 0) in F1 as (_ & _ & Q1 & N1). apply wq_refl; auto.
  Qed.
  Lemma step_wq s op s' : cr_step C E s op = Ok s' -> (forall o p, op <> CFailed o p) -> (forall o p, op <> CSlotExpired o p) -> wq s s'.
  Proof.
    intros H NF NS.
    assert (Hph : forall s para p1 p2 s', try_phase s para p1 p2 = Ok s' -> wq s s').
    { intros s0 para p1 p2 s1 H1. unfold try_phase in H1. bstep H1 kv E1. bstep H1 u2 E2. injection H1 as <-. apply wq_refl; auto. }
    assert (Hclaim : forall w para a b f s', do_claim_for C E s w para a b f = Ok s' -> wq s s').
    { intros w para a b f s1 H1. unfold do_claim_for in H1. bstep H1 c0 Hct. bstep H1 v Hv. bstep H1 u1 E1. bstep H1 u2 E2. bstep H1 L E3.
      destruct (bonus_amount C s a b (con_get s (v_trie v) KContr w) =? 0); [injection H1 as <-; apply wq_refl; auto|]. bstep H1 st E4. injection H1 as <-. apply wq_refl; auto. }
    assert (Hred : forall w para a b amt s', redeem C E s w para a b amt = Ok s' -> wq s s').
    { intros w para a b amt s1 H1. unfold redeem in H1. bstep H1 ctoken Hct. bstep H1 v Hv. bstep H1 u1 E1. bstep H1 u2 E2. bstep H1 c0 E3. bstep H1 L E4. bstep H1 L2 E5. injection H1 as <-. apply wq_refl; auto. }
    destruct op; cbn [cr_step] in H.
    - unfold create_vault in H. bstep H u0 E0. bstep H u1 E1. bstep H u2 E2. bstep H u3 E3. bstep H u4 E4. bstep H u5 E5. bstep H u6 E6. bstep H u7 E7. injection H as <-. apply wq_refl; auto.
    - unfold update_vault in H. bstep H u0 E0. bstep H kv E1. bstep H u2 E2. bstep H u3 E3. injection H as <-. apply wq_refl; auto.
    - unfold open_vault in H. bstep H u0 E0. eauto.
    - unfold contribute in H. bstep H kv E0. bstep H u1 E1. bstep H u2 E2. bstep H u3 E3. bstep H u4 E4. bstep H u5 E5. bstep H t E6. bstep H t' E7. bstep H u6 E8. bstep H L E9.
      destruct (bool_decide (v_phase kv.2 = Contributing)); apply rbind_ok in H as ([s2 v2] & F1 & H).
      + bstep H s3 F2. injection H as <-. unfold do_contribute in F2. bstep F2 u F. apply wq_sendc in F2. apply (own_upd _ _ _ _ _ _ _ _ 0) in F1 as (_ & _ & Q1 & N1).
        eapply wq_trans; [|eapply wq_trans; [exact F2|apply wq_refl; auto]]. apply wq_refl; auto.
      + injection H as <-. apply (own_upd _ _ _ _ _ _ _ _ 0) in F1 as (_ & _ & Q1 & N1). apply wq_refl; auto.
    - unfold set_vrf in H. bstep H u0 E0. injection H as <-. apply wq_refl; auto.
    - unfold close_vault in H. bstep H u0 E0. eauto.
    - unfold reopen_vault in H. bstep H u0 E0. eauto.
    - unfold auction_succeeded in H. bstep H u0 E0. eauto.
    - destruct (NF o para); reflexivity.
    - eauto.
    - unfold withdraw_for in H. bstep H v Hv. bstep H u1 E1. bstep H u2 E2. bstep H c0 E3. bstep H L E4. injection H as <-. apply wq_refl; auto.
    - eauto.
    - destruct (NS o para); reflexivity.
    - unfold migrate_pending in H. bstep H u0 E0. bstep H kv E1. bstep H u2 E2. bstep H u3 E3. apply rbind_ok in H as ([s1 v1] & F1 & H). injection H as <-. apply wq_loop in F1. eapply wq_trans; [exact F1|apply wq_refl; auto].
    - unfold notification in H. bstep H u E0. destruct r as [ok|]; [|injection H as <-; apply wq_refl; auto].
      destruct (c_reqs s !! q) as [r|] eqn:Eq; [|injection H as <-; apply wq_refl; auto]. unfold notified in H. apply rbind_ok in H as (s1 & H1 & H). injection H as <-.
      assert (HW : c_reqs s1 = c_reqs s /\ c_qid s1 = c_qid s).
      { destruct r.
        - bstep H1 v Hv. destruct ok.
          + bstep H1 L E1. apply rbind_ok in H1 as ([s2 v2] & F1 & H1). injection H1 as <-. apply (own_mig _ _ _ _ _ _ _ _ 0) in F1 as (_ & _ & Q1 & N1). auto.
          + bstep H1 L E1. apply rbind_ok in H1 as ([s2 v2] & F1 & H1). injection H1 as <-. apply (own_upd _ _ _ _ _ _ _ _ 0) in F1 as (_ & _ & Q1 & N1). auto.
        - destruct ok; [|injection H1 as <-; auto]. bstep H1 v Hv. injection H1 as <-. auto. }
      destruct HW as [Q1 N1]. destruct ok; [|apply wq_refl; auto]. intros q' para a b x p Hq. cbn in Hq. rewrite Q1 in Hq. apply lookup_delete_Some in Hq as [_ Hq]. exact Hq.
    - unfold refund in H. bstep H u0 E0. bstep H v Hv. bstep H u1 E1. apply rbind_ok in H as ([s1 v1] & F1 & H). injection H as <-. apply wq_refund_loop in F1. eapply wq_trans; [exact F1|apply wq_refl; auto].
    - unfold dissolve_vault in H. bstep H u0 E0. bstep H v Hv. bstep H u1 E1. bstep H u2 E2. bstep H t E3. bstep H u3 E4. injection H as <-. destruct (c_leases s !! para) as [p|]; [destruct (bool_decide (p = (ls, le)))|]; apply wq_refl; auto.
    - unfold refund_for in H. bstep H u0 E0. bstep H v Hv. bstep H u1 E1. bstep H u2 E2. apply rbind_ok in H as ([s1 v1] & F1 & H). injection H as <-. unfold do_refund_for in F1. bstep F1 L E3. apply (own_upd _ _ _ _ _ _ _ _ 0) in F1 as (_ & _ & Q1 & N1). apply wq_refl; auto.
    - unfold update_proxy in H. bstep H u0 E0. injection H as <-. apply wq_refl; auto.
    - unfold update_bonus in H. bstep H u0 E0. bstep H u1 E1. bstep H u2 E2. injection H as <-. apply wq_refl; auto.
    - unfold force_claim in H. bstep H u0 E0. eauto.
    - unfold redeem_and_lend in H. bstep H u0 E0. bstep H u1 E1. bstep H s1 E2. bstep H u2 E3. bstep H L E4. injection H as <-. apply Hred in E2. eapply wq_trans; [exact E2|apply wq_refl; auto].
    - unfold set_xfee in H. bstep H u0 E0. injection H as <-. apply wq_refl; auto.
    - injection H as <-. apply wq_refl; auto.
    - bstep H st E0. injection H as <-. apply wq_refl; auto.
  Qed.
  Lemma withdraw_req s para p1 p2 s' q a b x p para' : try_withdraw C E s para p1 p2 = Ok s' -> c_reqs s' !! q = Some (QWithdraw para' a b x p) -> c_reqs s !! q <> Some (QWithdraw para' a b x p) ->
    cst C ct s -> exists v, para' = para /\ c_leases s !! para = Some (a, b) /\ c_vaults s !! (para, a, b) = Some v /\ v_phase v = p1 /\ x = v_contr v /\ p = p2 /\ q = c_qid s.
  Proof.
    intros H Hq Hn Hs. unfold try_withdraw in H. bstep H kv E1. bstep H u2 E2. bstep H s2 E3. injection H as <-. unfold do_withdraw in E3. apply csend_eff in E3 as (L & _ & _ & ->).
    cbn in Hq. destruct (decide (q = c_qid s)) as [->|Ne]; [|rewrite lookup_insert_ne in Hq by auto; contradiction].
    rewrite lookup_insert in Hq. injection Hq as <- <- <- <- <-. destruct kv as [k v]. destruct (current_some C ct s _ _ _ E1 Hs) as (Q1 & Q2 & ->). cbn in E2 |- *. exists v. apply bool_decide_eq_true in E2. repeat split; auto.
  Qed.
  Lemma step_withdraw s op s' q para a b x p : cr_step C E s op = Ok s' -> cst C ct s -> c_reqs s' !! q = Some (QWithdraw para a b x p) -> c_reqs s !! q <> Some (QWithdraw para a b x p) ->
    exists o v, c_leases s !! para = Some (a, b) /\ c_vaults s !! (para, a, b) = Some v /\ x = v_contr v /\ q = c_qid s /\
      ((op = CFailed o para /\ v_phase v = Closed /\ p = Failed) \/ (op = CSlotExpired o para /\ v_phase v = Succeeded /\ p = Expired)).
  Proof.
    intros H Hs Hq Hn. assert (D : (exists o p0, op = CFailed o p0 \/ op = CSlotExpired o p0) \/ ((forall o p0, op <> CFailed o p0) /\ (forall o p0, op <> CSlotExpired o p0))).
    { destruct op; try (right; split; intros; discriminate); left; eauto. }
    destruct D as [(o & p0 & [-> | ->])|[N1 N2]].
    - cbn in H. unfold auction_failed in H. bstep H u0 E0. destruct (withdraw_req _ _ _ _ _ _ _ _ _ _ _ H Hq Hn Hs) as (v & -> & ? & ? & ? & ? & ? & ?). exists o, v. do 4 (split; [assumption|]). left. auto.
    - cbn in H. unfold slot_expired in H. bstep H u0 E0. destruct (withdraw_req _ _ _ _ _ _ _ _ _ _ _ H Hq Hn Hs) as (v & -> & ? & ? & ? & ? & ? & ?). exists o, v. do 4 (split; [assumption|]). right. auto.
    - destruct (Hn (step_wq s op s' H N1 N2 _ _ _ _ _ _ Hq)).
  Qed.
End wreq.
