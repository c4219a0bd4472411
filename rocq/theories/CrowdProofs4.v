(** * CrowdProofs4: the remaining calls and the invariant of every reachable state. *)
From Verif Require Import Base MapSum Ledger AmmModel StreamModel StreamSpec CrowdModel CrowdSpec CrowdProofs CrowdProofs2 CrowdProofs3.

Section calls.
  Context (C : cr_cfg) (E : cr_env) (ct : Z -> bool) (HC : cr_cfg_ok C ct).
  Let P := ce_pol E.
  Notation R := (cc_relay C). Notation A := (cc_acct C).
  Notation good := (good C E ct).
  Notation slack := (slack C). Notation relay_total := (relay_total C). Notation moved_ok := (moved_ok C E ct).

  Lemma create_moved s o para c a b px cap e s' : create_vault C s o para c a b px cap e = Ok s' -> good s -> ct c = true -> moved_ok s s' 0.
  Proof.
    intros H [Hg Hr] Hc. unfold create_vault in H. bstep H u0 E0. bstep H u1 E1. bstep H u2 E2. bstep H u3 E3. bstep H u4 E4. bstep H u5 E5. bstep H u6 E6. bstep H u7 E7.
    injection H as H. set (v := vault_new a b c px cap e (c_next s)) in *.
    assert (Hnew : c_vaults s !! (para, a, b) = None).
    { apply negb_true_iff, bool_decide_eq_false in E4. destruct (c_vaults s !! (para, a, b)); auto. exfalso; eauto. }
    assert (B1 : c_vaults s' = <[(para, a, b) := v]> (c_vaults s)) by (subst s'; reflexivity).
    assert (B2 : c_con s' = c_con s) by (subst s'; reflexivity).
    assert (B3 : c_next s' = c_next s + 1) by (subst s'; reflexivity).
    assert (B4 : c_ctok s' = <[(a, b) := c]> (c_ctok s)) by (subst s'; reflexivity).
    assert (B5 : c_leases s' = <[para := (a, b)]> (c_leases s)) by (subst s'; reflexivity).
    assert (B6 : c_reqs s' = c_reqs s) by (subst s'; reflexivity).
    assert (B7 : c_qid s' = c_qid s) by (subst s'; reflexivity).
    assert (B8 : c_bonus s' = c_bonus s) by (subst s'; reflexivity).
    assert (B9 : c_str s' = c_str s) by (subst s'; reflexivity). clear H.
    assert (Hbk : forall k, book (c_con s) (c_next s) k = 0).
    { intros k. apply book_zero. intros w. destruct (c_con s !! (c_next s, k, w)) as [x|] eqn:Ex; auto.
      apply (cs_con _ _ _ Hg) in Ex as (_ & _ & _ & key & v0 & Hv & Ht). destruct (cs_vault _ _ _ Hg _ _ Hv). lia. }
    assert (Hold : forall k v0, c_vaults s !! k = Some v0 -> k <> (para, a, b) /\ v_trie v0 <> c_next s).
    { intros k v0 Hv. split; [congruence|]. destruct (cs_vault _ _ _ Hg _ _ Hv). lia. }
    assert (Hst : cst C ct s').
    { split; rewrite ?B1, ?B2, ?B5, ?B6, ?B7, ?B8.
      - intros k v0 Hv. apply lookup_insert_Some in Hv as [[<- <-]|[Hne Hv]].
        + split; rewrite ?B2, ?B3, ?B4, ?B5; cbn; auto; try lia; first [symmetry; apply Hbk|apply lookup_insert|left; apply lookup_insert].
        + destruct (cs_vault _ _ _ Hg _ _ Hv) as [G1 G2 G3 G4 G5 G6 G7 G8 G9]. split; rewrite ?B2, ?B3, ?B4, ?B5; auto; try lia.
          * destruct (decide ((a, b) = (v_ls v0, v_le v0))) as [Heq|Hn]; [|rewrite lookup_insert_ne; auto].
            rewrite Heq, lookup_insert. rewrite <- Heq in G7. rewrite G7 in E3. f_equal. lia.
          * destruct (decide (k.1.1 = para)) as [<-|Hn]; [|rewrite lookup_insert_ne; auto].
            destruct G9 as [G9|G9]; auto. right. unfold current_vault in E5. rewrite G9 in E5. destruct k as [[p x] y]. cbn in *.
            rewrite Hv in E5. apply bool_decide_eq_true in E5. exact E5.
      - intros k1 k2 v1 v2 H1 H2 Ht. apply lookup_insert_Some in H1 as [[<- <-]|[N1 H1]], H2 as [[<- <-]|[N2 H2]]; auto.
        + apply Hold in H2. cbn in Ht. destruct H2. congruence.
        + apply Hold in H1. cbn in Ht. destruct H1. congruence.
        + eapply (cs_uniq _ _ _ Hg); eauto.
      - intros t k w x Hx. apply (cs_con _ _ _ Hg) in Hx as (? & ? & ? & key & v0 & Hv & Ht). repeat (split; [assumption|]).
        exists key, v0. rewrite lookup_insert_ne; auto. apply Hold in Hv. destruct Hv; congruence.
      - intros p x y Hl. apply lookup_insert_Some in Hl as [[<- Heq]|[Hne Hl]].
        + injection Heq as <- <-. rewrite lookup_insert. eauto.
        + apply (cs_lease _ _ _ Hg) in Hl. rewrite lookup_insert_ne; auto. congruence.
      - apply (cs_req _ _ _ Hg). - apply (cs_reqc _ _ _ Hg). - apply (cs_qid _ _ _ Hg). - apply (cs_bonus _ _ _ Hg). }
    split; [split; auto; rewrite B9; auto|]. unfold CrowdProofs2.slack, tok_gap, CrowdProofs2.relay_total, held, lent, lent_for, unclaimed, c_led.
    rewrite B1, B2, B9. rewrite !msum_insert, Hnew. cbn [v_pend v_fly v_contr v vault_new].
    split; [lia|]. split; [|lia]. intros c0 _. rewrite !msum_insert, Hnew. cbn [v_ctoken v_contr v_trie v vault_new]. rewrite Hbk. case_bool_decide; lia.
  Qed.

  Lemma vault_moved s key v v' : good s -> c_vaults s !! key = Some v -> v_ctoken v' = v_ctoken v -> v_pend v' = v_pend v -> v_fly v' = v_fly v ->
    v_trie v' = v_trie v -> v_ls v' = v_ls v -> v_le v' = v_le v -> v_contr v' = v_contr v ->
    (v_phase v' = v_phase v \/ ended (v_phase v') \/ c_leases s !! key.1.1 = Some (key.1.2, key.2)) -> moved_ok s (put_vault s key v') 0.
  Proof.
    intros [Hg Hr] Hv E1 E2 E3 E4 E5 E6 E7 Hp. destruct (cs_vault _ _ _ Hg _ _ Hv).
    destruct (sums_vault s key v v' Hv E1 E4) as (S1 & S2 & S3 & S4).
    split; [split; auto; eapply cst_vault; eauto; lia|]. unfold CrowdProofs2.slack, tok_gap, CrowdProofs2.relay_total. rewrite S1, S2.
    change (c_led (put_vault s key v')) with (c_led s). split; [lia|]. split; [|lia]. intros c _. rewrite S3, S4. case_bool_decide; lia.
  Qed.
  Lemma update_moved s o para cap e px s' : update_vault C s o para cap e px = Ok s' -> good s -> moved_ok s s' 0.
  Proof.
    intros H Hg. unfold update_vault in H. bstep H u0 E0. bstep H kv E1. destruct kv as [key v]. cbn [snd] in H. bstep H u2 E2. bstep H u3 E3. injection H as <-.
    destruct (current_some _ _ _ _ _ _ E1 (proj1 Hg)) as (Hv & Hl & ->). eapply vault_moved; eauto.
  Qed.
  Lemma try_phase_moved s para p1 p2 s' : try_phase s para p1 p2 = Ok s' -> good s -> moved_ok s s' 0.
  Proof.
    intros H Hg. unfold try_phase in H. bstep H kv E1. destruct kv as [key v]. cbn [snd] in H. bstep H u2 E2. injection H as <-.
    destruct (current_some _ _ _ _ _ _ E1 (proj1 Hg)) as (Hv & Hl & ->). eapply vault_moved; eauto.
  Qed.
  Lemma try_withdraw_moved s para p1 p2 s' : try_withdraw C E s para p1 p2 = Ok s' -> good s -> ended p2 ->
    moved_ok s s' ((c_qid s' - c_qid s) * fee_of s XC_WITHDRAW).
  Proof.
    intros H Hg Hp. unfold try_withdraw in H. bstep H kv E1. destruct kv as [key v]. cbn [snd] in H. bstep H u2 E2. bstep H s1 E3. injection H as <-.
    destruct (current_some _ _ _ _ _ _ E1 (proj1 Hg)) as (Hv & Hl & ->). unfold do_withdraw in E3.
    pose proof (csend_ok C E ct HC _ _ _ _ E3 Hg Hp) as (_ & (B1 & _) & _).
    destruct (sent_moved C E ct HC _ _ _ _ E3 Hg Hp) as (M & Hq & _).
    rewrite put_id by (rewrite B1; auto). rewrite Hq. replace (c_qid s + 1 - c_qid s) with 1 by lia. rewrite Z.mul_1_l. exact M.
  Qed.

  (** ledger operations *)
  Lemma led_sums s L : held (set_c_led s L) = held s /\ lent (set_c_led s L) = lent s /\ (forall c, lent_for (set_c_led s L) c = lent_for s c) /\
    (forall c, unclaimed (set_c_led s L) c = unclaimed s c) /\ c_led (set_c_led s L) = L.
  Proof. repeat split. Qed.
  Lemma set_led_put s L key v : put_vault (set_c_led s L) key v = set_c_led (put_vault s key v) L.
  Proof. reflexivity. Qed.
  Lemma burn_gap s w amt L : burn_from P (c_led s) R w amt = Ok L -> good s -> w <> str_acct (cc_str C) ->
    good (set_c_led s L) /\ slack (set_c_led s L) = slack s - (if bool_decide (w = A) then amt else 0) /\
    (forall c, ct c = true -> tok_gap (set_c_led s L) c = tok_gap s c) /\ relay_total (set_c_led s L) = relay_total s - amt.
  Proof.
    intros H Hg Hw. pose proof (burn_spec _ _ _ _ _ _ H) as (B1 & _ & B2 & B3). destruct HC as (_ & _ & _ & _ & _ & Hrel).
    split; [apply good_led; auto; eapply reach_burn; eauto; apply Hg|].
    destruct (led_sums s L) as (S1 & S2 & S3 & S4 & S5). unfold CrowdProofs2.slack, tok_gap, CrowdProofs2.relay_total. rewrite S1, S2, S5, B2, B3.
    rewrite (bool_decide_true (R = R)) by auto. split; [unfold at_; repeat case_bool_decide; destruct_and?; subst; try lia; exfalso; auto|]. split; [|lia].
    intros c Hc. rewrite S3, S4, B3. rewrite bool_decide_false by congruence. lia.
  Qed.
  Lemma mint_gap s w amt L : mint_into P (c_led s) R w amt = Ok L -> good s ->
    good (set_c_led s L) /\ slack s <= slack (set_c_led s L) /\
    (forall c, ct c = true -> tok_gap (set_c_led s L) c = tok_gap s c) /\ relay_total (set_c_led s L) = relay_total s + amt.
  Proof.
    intros H Hg. pose proof (mint_spec _ _ _ _ _ _ H) as (B1 & B2 & B3). destruct HC as (_ & _ & _ & _ & _ & Hrel).
    split; [apply good_led; auto; eapply reach_mint; eauto; apply Hg|].
    destruct (led_sums s L) as (S1 & S2 & S3 & S4 & S5). unfold CrowdProofs2.slack, tok_gap, CrowdProofs2.relay_total. rewrite S1, S2, S5, B2, B3.
    rewrite (bool_decide_true (R = R)) by auto. split; [unfold at_; case_bool_decide; lia|]. split; [|lia].
    intros c Hc. rewrite S3, S4, B3. rewrite bool_decide_false by congruence. lia.
  Qed.
  Lemma transfer_gap s a f t amt L : transfer P (c_led s) a f t amt false = Ok L -> good s -> f <> str_acct (cc_str C) -> 0 <= amt ->
    good (set_c_led s L) /\ slack s - (if bool_decide (f = A /\ a = R) then amt else 0) <= slack (set_c_led s L) /\
    (forall c, tok_gap (set_c_led s L) c = tok_gap s c) /\ relay_total (set_c_led s L) = relay_total s.
  Proof.
    intros H Hg Hf Ha. pose proof (transfer_spec _ _ _ _ _ _ _ _ H) as (B2 & B3 & _).
    split; [apply good_led; auto; eapply reach_transfer; eauto; apply Hg|].
    destruct (led_sums s L) as (S1 & S2 & S3 & S4 & S5). unfold CrowdProofs2.slack, tok_gap, CrowdProofs2.relay_total. rewrite S1, S2, S5, B2, B3.
    split; [unfold at_; repeat case_bool_decide; destruct_and?; subst; try lia; exfalso; auto|]. split; [|lia].
    intros c. rewrite S3, S4, B3. lia.
  Qed.
  Lemma HA : A <> str_acct (cc_str C). Proof. destruct HC as (_ & _ & Hx & _). auto. Qed.

  Lemma migrate_con_moved s v w amt k1 k2 s1 v1 key : migrate_con s v w amt k1 k2 = Ok (s1, v1) -> good (put_vault s key v) -> kind_ok k1 -> kind_ok k2 -> 0 <= amt -> w <> A ->
    good (put_vault s1 key v1) /\ c_str s1 = c_str s /\
    slack (put_vault s1 key v1) = slack (put_vault s key v) + (if k1 =? KContr then 0 else amt) - (if k2 =? KContr then 0 else amt) /\
    (forall c, tok_gap (put_vault s1 key v1) c = tok_gap (put_vault s key v) c) /\
    relay_total (put_vault s1 key v1) = relay_total (put_vault s key v) - (if k1 =? KContr then amt else 0) + (if k2 =? KContr then amt else 0) /\
    v_trie v1 = v_trie v /\ v_ls v1 = v_ls v /\ v_le v1 = v_le v /\ v_ctoken v1 = v_ctoken v /\ v_phase v1 = v_phase v /\
    c_qid s1 = c_qid s /\ c_xfee s1 = c_xfee s.
  Proof.
    intros H Hg K1 K2 Ha Hw. unfold migrate_con in H. apply rbind_ok in H as ([s0 v0] & F1 & F2).
    destruct (upd_moved C E ct _ _ _ _ _ _ _ _ key F1 Hg K1 Ha ltac:(discriminate)) as (G1 & T1 & S1 & S2 & S3 & I1 & I2 & I3 & I4 & I5 & I6 & I7).
    destruct (upd_moved C E ct _ _ _ _ _ _ _ _ key F2 G1 K2 Ha ltac:(auto)) as (G1' & T1' & S1' & S2' & S3' & I1' & I2' & I3' & I4' & I5' & I6' & I7').
    split; auto. split; [congruence|]. split; [rewrite S1', S1; destruct (k1 =? KContr), (k2 =? KContr); lia|].
    split; [intros c; rewrite S2', S2; auto|]. split; [rewrite S3', S3; destruct (k1 =? KContr), (k2 =? KContr); lia|]. repeat split; congruence.
  Qed.

  Lemma migrate_loop_moved l : forall n s v para s1 v1, migrate_loop C E l n s v para = Ok (s1, v1) ->
    let key := (para, v_ls v, v_le v) in
    good (put_vault s key v) -> (forall w x, (w, x) ∈ l -> 0 <= x /\ w <> A) ->
    moved_ok (put_vault s key v) (put_vault s1 key v1) ((c_qid s1 - c_qid s) * fee_of s XC_CONTRIBUTE) /\ v_ls v1 = v_ls v /\ v_le v1 = v_le v /\ c_xfee s1 = c_xfee s.
  Proof.
    induction l as [|[w amt] l IH]; intros n s v para s1 v1 H key Hg Hl; cbn in H.
    - injection H as <- <-. rewrite Z.sub_diag. split; [apply moved_refl; auto|auto].
    - destruct n as [|n]; [injection H as <- <-; rewrite Z.sub_diag; split; [apply moved_refl; auto|auto]|].
      apply rbind_ok in H as ([s0 v0] & F1 & H). bstep H s2 F2.
      destruct (Hl w amt (elem_of_list_here _ _)) as [Ha Hw].
      destruct (migrate_con_moved _ _ _ _ _ _ _ _ key F1 Hg ltac:(left; reflexivity) ltac:(right; left; reflexivity) Ha Hw) as (G1 & T1 & S1 & S2 & S3 & I1 & I2 & I3 & I4 & I5 & I6 & I7).
      cbn in S1, S3. rewrite I2, I3 in F2. fold key in F2. apply (do_contribute_put _ _ _ _ _ _ _ _ key v0) in F2.
      destruct (do_contribute_moved C E ct HC _ _ _ _ _ _ F2 G1 Ha Hw) as (M & Q1 & Q2).
      assert (Hf : fee_of (put_vault s0 key v0) XC_CONTRIBUTE = fee_of s XC_CONTRIBUTE) by (unfold fee_of; cbn; rewrite I7; reflexivity).
      assert (Hk : (para, v_ls v0, v_le v0) = key) by (unfold key; congruence).
      apply IH in H; rewrite ?Hk in *; [|apply M|intros; apply Hl; right; auto].
      destruct H as (M2 & J1 & J2 & J3).
      assert (Hf2 : fee_of s2 XC_CONTRIBUTE = fee_of s XC_CONTRIBUTE) by (rewrite <- Hf; unfold fee_of; cbn in Q2 |- *; rewrite Q2; reflexivity).
      cbn in Q1. split; [|cbn in Q2; repeat split; congruence].
      replace ((c_qid s1 - c_qid s) * fee_of s XC_CONTRIBUTE) with (0 + (fee_of (put_vault s0 key v0) XC_CONTRIBUTE + (c_qid s1 - c_qid s2) * fee_of s2 XC_CONTRIBUTE))
        by (rewrite Hf, Hf2; replace (c_qid s2) with (c_qid s0 + 1) by auto; rewrite I6; lia).
      apply moved_trans with (s2 := put_vault s0 key v0); [|eapply moved_trans; eauto].
      split; auto. split; [lia|]. split; [auto|lia].
  Qed.
End calls.
