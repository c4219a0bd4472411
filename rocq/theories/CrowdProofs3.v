(** * CrowdProofs3: the calls, one by one. *)
From Verif Require Import Base MapSum Ledger AmmModel StreamModel StreamSpec CrowdModel CrowdSpec CrowdProofs CrowdProofs2.

Section calls.
  Context (C : cr_cfg) (E : cr_env) (ct : Z -> bool) (HC : cr_cfg_ok C ct).
  Let P := ce_pol E.
  Notation R := (cc_relay C). Notation A := (cc_acct C).
  Notation good := (good C E ct).
  Notation slack := (slack C). Notation relay_total := (relay_total C).

  Definition moved_ok (s s' : cr) (fee : Z) : Prop :=
    good s' /\ slack s <= slack s' /\ (forall c, ct c = true -> tok_gap s' c = tok_gap s c) /\ relay_total s' = relay_total s - fee.
  Lemma moved_refl s : good s -> moved_ok s s 0.
  Proof. intros. split; auto. split; [lia|]. split; [auto|lia]. Qed.
  Lemma moved_trans s1 s2 s3 f1 f2 : moved_ok s1 s2 f1 -> moved_ok s2 s3 f2 -> moved_ok s1 s3 (f1 + f2).
  Proof. intros (A1 & A2 & A3 & A4) (B1 & B2 & B3 & B4). split; auto. split; [lia|]. split; [|lia]. intros c Hc. rewrite (B3 c Hc). auto. Qed.
  (** same books, same ledger *)
  Lemma moved_same s s' : good s -> same_books s s' -> c_str s' = c_str s -> c_reqs s' = c_reqs s -> c_qid s' = c_qid s -> c_bonus s' = c_bonus s -> moved_ok s s' 0.
  Proof.
    intros [G1 G2] Hb Hs H1 H2 H3. assert (cst C ct s') by (eapply cst_same; eauto).
    destruct Hb as (B1 & B2 & _). destruct (sums_same s s' B1 B2) as (S1 & S2 & S3 & S4).
    split; [split; auto; rewrite Hs; auto|]. unfold CrowdProofs2.slack, tok_gap, CrowdProofs2.relay_total, c_led. rewrite Hs, S1, S2. split; [lia|]. split; [|lia].
    intros c _. rewrite S3, S4. reflexivity.
  Qed.

  Lemma current_some s para k v : current_vault s para = Some (k, v) -> cst C ct s ->
    c_vaults s !! k = Some v /\ c_leases s !! para = Some (v_ls v, v_le v) /\ k = (para, v_ls v, v_le v).
  Proof.
    intros H Hs. unfold current_vault in H. destruct (c_leases s !! para) as [[a b]|] eqn:El; [|discriminate].
    destruct (c_vaults s !! (para, a, b)) as [v0|] eqn:Ev; [|discriminate]. injection H as <- <-.
    destruct (cs_vault _ _ _ Hs _ _ Ev) as [-> -> _ _ _ _ _ _ _]. auto.
  Qed.
  Lemma key_eq s para a b v : c_vaults s !! (para, a, b) = Some v -> cst C ct s -> v_ls v = a /\ v_le v = b.
  Proof. intros Hv Hs. destruct (cs_vault _ _ _ Hs _ _ Hv) as [-> -> _ _ _ _ _ _ _]. auto. Qed.

  Lemma csend_put s k r s' key v : csend C E s k r = Ok s' -> csend C E (put_vault s key v) k r = Ok (put_vault s' key v).
  Proof.
    unfold csend. intros H. bstep H L E1. bstep H u E2. injection H as <-. cbn [c_led c_str put_vault set_c_vaults c_xfee c_qid c_reqs] in *.
    change (c_led (put_vault s key v)) with (c_led s). rewrite E1. cbn [rbind]. unfold ensure. destruct (ce_send E (c_qid s)); [|discriminate]. reflexivity.
  Qed.
  Lemma do_contribute_put s w k px amt s' key v : do_contribute C E s w k px amt = Ok s' ->
    do_contribute C E (put_vault s key v) w k px amt = Ok (put_vault s' key v).
  Proof.
    unfold do_contribute. cbn [c_proxy put_vault set_c_vaults]. intros H. bstep H u E1. unfold ensure. rewrite E1. cbn [rbind].
    apply csend_put. auto.
  Qed.
  Lemma sent_moved s k r s' : csend C E s k r = Ok s' -> good s ->
    match r with QContribute _ _ _ w x => 0 <= x /\ w <> A | QWithdraw _ _ _ _ p => ended p end ->
    moved_ok s s' (fee_of s k) /\ c_qid s' = c_qid s + 1 /\ c_xfee s' = c_xfee s.
  Proof.
    intros H Hg Hr. destruct (csend_ok C E ct HC _ _ _ _ H Hg Hr) as (G & (B1 & B2 & _) & B3 & B4 & B5 & B6 & B7 & B8 & _).
    destruct (sums_same s s' B1 B2) as (S1 & S2 & S3 & S4). split; [|auto]. split; auto.
    unfold CrowdProofs2.slack, tok_gap, CrowdProofs2.relay_total. rewrite S1, S2, B6, !B7. unfold at_.
    destruct HC as (_ & Hx & _ & _ & _ & Hrel).
    rewrite bool_decide_false by (intros [_ ?]; congruence). rewrite bool_decide_true by auto. split; [lia|]. split; [|lia].
    intros c Hc. rewrite S3, S4, B7. rewrite bool_decide_false by congruence. lia.
  Qed.
  Lemma do_contribute_moved s w k px amt s' : do_contribute C E s w k px amt = Ok s' -> good s -> 0 <= amt -> w <> A ->
    moved_ok s s' (fee_of s XC_CONTRIBUTE) /\ c_qid s' = c_qid s + 1 /\ c_xfee s' = c_xfee s.
  Proof. unfold do_contribute. intros H Hg Ha Hw. bstep H u E1. apply (sent_moved _ _ _ _ H Hg). auto. Qed.

  (** the totals after an edit of one book, in the virtual state *)
  Lemma upd_moved s v w amt add k s1 v1 key : upd_con s v w amt add k = Ok (s1, v1) -> good (put_vault s key v) -> kind_ok k -> 0 <= amt ->
    (add = true -> w <> A) ->
    let d := if add then amt else - amt in
    good (put_vault s1 key v1) /\ c_str s1 = c_str s /\
    slack (put_vault s1 key v1) = slack (put_vault s key v) - (if k =? KContr then 0 else d) /\
    (forall c, tok_gap (put_vault s1 key v1) c = tok_gap (put_vault s key v) c) /\
    relay_total (put_vault s1 key v1) = relay_total (put_vault s key v) + (if k =? KContr then d else 0) /\
    v_trie v1 = v_trie v /\ v_ls v1 = v_ls v /\ v_le v1 = v_le v /\ v_ctoken v1 = v_ctoken v /\ v_phase v1 = v_phase v /\
    c_qid s1 = c_qid s /\ c_xfee s1 = c_xfee s.
  Proof.
    intros H [Hg Hr] Hk Ha Hw d. destruct (upd_con_ok C ct _ _ _ _ _ _ _ _ _ H Hg Hk Ha Hw) as (S0 & S1 & S2 & S3 & S4 & S5 & _ & _ & _ & _ & S6 & S7).
    fold d in S1, S2, S3, S4, S6, S7. destruct (v_put_id v k (v_get v k + d)) as (Q1 & Q2 & Q3 & Q4 & Q5 & Q6).
    split; [split; [auto|]|]. { change (c_str (put_vault s1 key v1)) with (c_str s1). rewrite S5. exact Hr. }
    split; [auto|]. unfold CrowdProofs2.slack, tok_gap, CrowdProofs2.relay_total, c_led.
    change (c_str (put_vault s1 key v1)) with (c_str s1). change (c_str (put_vault s key v)) with (c_str s). rewrite S5, S1, S2.
    split; [lia|]. split; [intros c; rewrite S3, S4; lia|]. split; [lia|]. subst v1. subst s1. repeat split; auto.
  Qed.

  Lemma contribute_moved s w para amt s' : contribute C E s w para amt = Ok s' -> good s -> w <> A -> w <> str_acct (cc_str C) -> 0 <= amt ->
    moved_ok s s' ((c_qid s' - c_qid s) * fee_of s XC_CONTRIBUTE).
  Proof.
    intros H [Hg Hr] Hw Hw2 Ha. unfold contribute in H. bstep H kv E0. destruct kv as [key v]. cbn [snd] in H.
    bstep H u1 E1. bstep H u2 E2. bstep H u3 E3. bstep H u4 E4. bstep H u5 E5. bstep H t E6. bstep H t' E7. bstep H u6 E8. bstep H L E9.
    destruct (current_some _ _ _ _ E0 Hg) as (Hv & Hl & Hkey).
    set (s1 := set_c_led s L) in *.
    assert (Hg1 : good s1). { apply good_led; [split; auto|]. eapply reach_transfer; eauto. }
    assert (Hv1 : c_vaults s1 !! key = Some v) by exact Hv.
    pose proof (transfer_spec _ _ _ _ _ _ _ _ E9) as (T1 & T2 & _).
    assert (Q1 : slack s1 = slack s + amt).
    { unfold CrowdProofs2.slack, s1. change (held (set_c_led s L)) with (held s). cbn [c_led set_c_led c_str set_c_str s_set_led s_led]. rewrite T1. unfold at_.
      rewrite bool_decide_false by (intros [_ ?]; congruence). rewrite bool_decide_true by auto. unfold c_led. lia. }
    assert (Q2 : forall c, tok_gap s1 c = tok_gap s c). { intros c. unfold tok_gap, s1. cbn [c_led set_c_led c_str set_c_str s_set_led s_led]. rewrite T2. reflexivity. }
    assert (Q3 : relay_total s1 = relay_total s). { unfold CrowdProofs2.relay_total, s1. cbn [c_led set_c_led c_str set_c_str s_set_led s_led]. rewrite T2. reflexivity. }
    assert (Q4 : c_qid s1 = c_qid s /\ fee_of s1 XC_CONTRIBUTE = fee_of s XC_CONTRIBUTE) by (split; reflexivity). destruct Q4 as [Q4 Q5].
    clearbody s1. rewrite <- (put_id s1 key v Hv1) in Hg1, Q1, Q2, Q3.
    destruct (bool_decide (v_phase v = Contributing)).
    - apply rbind_ok in H as ([s2 v2] & F1 & H). bstep H s3 F2. injection H as <-.
      destruct (upd_moved _ _ _ _ _ _ _ _ key F1 Hg1 ltac:(right; left; reflexivity) Ha ltac:(auto)) as (G2 & _ & S1 & S2 & S3 & I1 & I2 & I3 & _ & _ & J1 & J2).
      cbn in S1, S3. rewrite I2, I3, <- Hkey in *.
      apply (do_contribute_put _ _ _ _ _ _ key v2) in F2.
      destruct (do_contribute_moved _ _ _ _ _ _ F2 G2 Ha Hw) as ((G3 & D1 & D2 & D3) & D4 & D5).
      assert (Hf : fee_of (put_vault s2 key v2) XC_CONTRIBUTE = fee_of s XC_CONTRIBUTE) by (rewrite <- Q5; unfold fee_of; cbn; rewrite J2; reflexivity).
      assert (Hq : c_qid (put_vault s3 key v2) - c_qid s = 1) by (rewrite D4; cbn; lia).
      rewrite Hq, Z.mul_1_l. split; auto. split; [lia|]. split; [intros c Hc; rewrite D2, S2 by auto; auto|lia].
    - apply rbind_ok in H as ([s2 v2] & F1 & H). injection H as <-.
      destruct (upd_moved _ _ _ _ _ _ _ _ key F1 Hg1 ltac:(left; reflexivity) Ha ltac:(auto)) as (G2 & _ & S1 & S2 & S3 & I1 & I2 & I3 & _ & _ & J1 & J2).
      cbn in S1, S3. rewrite I2, I3, <- Hkey in *.
      assert (Hq : c_qid (put_vault s2 key v2) - c_qid s = 0) by (cbn; lia). rewrite Hq.
      split; auto. split; [lia|]. split; [intros c Hc; rewrite S2; auto|lia].
  Qed.
End calls.
