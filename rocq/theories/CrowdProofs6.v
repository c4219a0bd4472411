(** * CrowdProofs6: the exact effect of each call. *)
From Verif Require Import Base MapSum Ledger AmmModel StreamModel StreamSpec StreamProofs StreamProofs2 StreamProofs3 CrowdModel CrowdSpec CrowdProofs CrowdProofs2 CrowdProofs3 CrowdProofs4 CrowdProofs5.


Section exact.
  Context (C : cr_cfg) (E : cr_env) (ct : Z -> bool) (HC : cr_cfg_ok C ct).
  Let P := ce_pol E.
  Notation R := (cc_relay C). Notation A := (cc_acct C).
  Notation good := (good C E ct).

  Lemma upd_con_eff s v w amt add k s1 v1 : upd_con s v w amt add k = Ok (s1, v1) ->
    let d := if add then amt else - amt in
    v1 = v_put v k (v_get v k + d) /\ s1 = con_put s (v_trie v) k w (entry s v k w + d) /\ entry_moved s s1 (v_trie v) k w d /\
    0 <= v_get v k + d <= U128MAX /\ 0 <= entry s v k w + d <= U128MAX.
  Proof.
    intros H d.
    assert (Hx : s1 = con_put s (v_trie v) k w (entry s v k w + d) /\ v1 = v_put v k (v_get v k + d) /\ 0 <= v_get v k + d <= U128MAX /\ 0 <= entry s v k w + d <= U128MAX).
    { unfold upd_con, con_get, entry in *. subst d. destruct add.
      - bstep H c E1. bstep H n E2. injection H as <- <-. destruct E1 as [-> ?], E2 as [-> ?]. repeat split; auto; lia.
      - bstep H c E1. bstep H n E2. injection H as <- <-. destruct E1 as [-> ?], E2 as [-> ?]. repeat split; auto; lia. }
    destruct Hx as (-> & -> & X1 & X2). split; [auto|]. split; auto. split; [|auto].
    intros t' k' w'. rewrite con_put_con, cput_get. unfold entry. case_bool_decide as Hd; [destruct Hd as (-> & -> & ->); lia|lia].
  Qed.
  Lemma entry_moved_trans s s1 s2 t k w d t2 k2 w2 d2 : entry_moved s s1 t k w d -> entry_moved s1 s2 t2 k2 w2 d2 ->
    forall t' k' w', default 0 (c_con s2 !! (t', k', w')) = default 0 (c_con s !! (t', k', w')) + (if bool_decide (t' = t /\ k' = k /\ w' = w) then d else 0)
      + (if bool_decide (t' = t2 /\ k' = k2 /\ w' = w2) then d2 else 0).
  Proof. intros H1 H2 t' k' w'. rewrite H2, H1. lia. Qed.

  Lemma csend_eff s k r s' : csend C E s k r = Ok s' ->
    exists L, burn_from P (c_led s) R (cc_xcm C) (fee_of s k) = Ok L /\ ce_send E (c_qid s) = true /\
      s' = set_c_qid (set_c_reqs (set_c_led s L) (<[c_qid s := r]> (c_reqs s))) (c_qid s + 1).
  Proof.
    intros H. unfold csend in H. bstep H L E1. bstep H u E2. injection H as <-. exists L.
    destruct (burn_from (ce_pol E) (c_led s) R (cc_xcm C) (default 0 (c_xfee s !! k))) as [L0|?|] eqn:Eb; try discriminate. injection E1 as ->.
    split; [exact Eb|]. split; auto.
  Qed.

  (** ** contribute *)
  Lemma contribute_exact s w para amt s' : cst C ct s -> contribute C E s w para amt = Ok s' ->
    exists a b v, c_leases s !! para = Some (a, b) /\ c_vaults s !! (para, a, b) = Some v /\
      amt <> 0 /\ cc_min C <= amt /\ c_rblock s <= v_end v /\ c_vrf s = false /\ v_contr v + v_fly v + v_pend v + amt <= v_cap v /\
      (forall x y, bal (c_led s') x y = bal (c_led s) x y - at_ R w x y amt + at_ R A x y amt
                                        - (if bool_decide (v_phase v = Contributing) then at_ R (cc_xcm C) x y (fee_of s XC_CONTRIBUTE) else 0)) /\
      ((v_phase v = Contributing /\ c_vaults s' = <[(para, a, b) := v_set_fly v (v_fly v + amt)]> (c_vaults s) /\
        entry_moved s s' (v_trie v) KFly w amt /\ c_reqs s' = <[c_qid s := QContribute para a b w amt]> (c_reqs s) /\ c_qid s' = c_qid s + 1) \/
       (v_phase v = Pending /\ c_vaults s' = <[(para, a, b) := v_set_pend v (v_pend v + amt)]> (c_vaults s) /\
        entry_moved s s' (v_trie v) KPend w amt /\ c_reqs s' = c_reqs s /\ c_qid s' = c_qid s)).
  Proof.
    intros Hg H. unfold contribute in H. bstep H kv E0. destruct kv as [key v]. cbn [snd] in H.
    bstep H u1 E1. bstep H u2 E2. bstep H u3 E3. bstep H u4 E4. bstep H u5 E5. bstep H t E6. bstep H t' E7. bstep H u6 E8. bstep H L E9.
    destruct (current_some _ _ _ _ _ _ E0 Hg) as (Hv & Hl & ->). exists (v_ls v), (v_le v), v.
    unfold total_contribution in E6. bstep E6 x0 E6'. apply ok_or_ok in E6. unfold checked_add in E6. apply chk_some in E6.
    pose proof (transfer_spec _ _ _ _ _ _ _ _ E9) as (T1 & T2 & _).
    split; [auto|]. split; [auto|]. split; [lia|]. split; [lia|]. split; [lia|]. split; [destruct (c_vrf s); auto; discriminate|]. split; [lia|].
    apply bool_decide_eq_true in E3. destruct (bool_decide (v_phase v = Contributing)) eqn:Ep.
    - apply bool_decide_eq_true in Ep. apply rbind_ok in H as ([s2 v2] & F1 & H). bstep H s3 F2. injection H as <-.
      apply upd_con_eff in F1 as (-> & -> & M & _). cbn [KFly] in *. change (v_put v KFly (v_get v KFly + amt)) with (v_set_fly v (v_fly v + amt)) in *.
      cbn [v_ls v_le v_proxy v_set_fly] in F2. unfold do_contribute in F2. bstep F2 u7 F3. apply csend_eff in F2 as (L2 & Hb & _ & ->). cbn [fst snd] in *.
      pose proof (burn_spec _ _ _ _ _ _ Hb) as (_ & _ & B2 & _). cbn [v_ls v_le v_set_fly].
      split; [|left; split; [auto|split; [reflexivity|split; [exact M|split; reflexivity]]]].
      intros x y. change (c_led (put_vault _ _ _)) with L2. rewrite B2. change (c_led (con_put _ _ _ _ _)) with L. rewrite T1.
      change (fee_of (con_put (set_c_led s L) (v_trie v) KFly w (entry (set_c_led s L) v KFly w + amt)) XC_CONTRIBUTE) with (fee_of s XC_CONTRIBUTE). lia.
    - apply bool_decide_eq_false in Ep. apply rbind_ok in H as ([s2 v2] & F1 & H). injection H as <-.
      apply upd_con_eff in F1 as (-> & -> & M & _). change (v_put v KPend (v_get v KPend + amt)) with (v_set_pend v (v_pend v + amt)) in *.
      cbn [v_ls v_le v_set_pend]. split; [|right; split; [tauto|split; [reflexivity|split; [exact M|split; reflexivity]]]].
      intros x y. change (c_led (put_vault _ _ _)) with L. rewrite T1. lia.
  Qed.

  (** ** answers of the relay chain *)
  Lemma settle_exact s q para a b w amt ok s' : notified C E s q (QContribute para a b w amt) ok = Ok s' ->
    exists v, c_vaults s !! (para, a, b) = Some v /\ amt <= v_fly v /\ amt <= entry s v KFly w /\
      (if ok then
         c_vaults s' = <[(para, a, b) := v_set_contr (v_set_fly v (v_fly v - amt)) (v_contr v + amt)]> (c_vaults s) /\
         (forall k' w', entry s' v k' w' = entry s v k' w' + (if bool_decide (k' = KFly /\ w' = w) then - amt else 0) + (if bool_decide (k' = KContr /\ w' = w) then amt else 0)) /\
         (forall x y, bal (c_led s') x y = bal (c_led s) x y - at_ R A x y amt) /\ c_reqs s' = delete q (c_reqs s)
       else
         c_vaults s' = <[(para, a, b) := v_set_fly v (v_fly v - amt)]> (c_vaults s) /\
         (forall k' w', entry s' v k' w' = entry s v k' w' + (if bool_decide (k' = KFly /\ w' = w) then - amt else 0)) /\
         (forall x y, bal (c_led s') x y = bal (c_led s) x y - at_ R A x y amt + at_ R w x y amt) /\ c_reqs s' = c_reqs s).
  Proof.
    intros H. unfold notified in H. apply rbind_ok in H as (s1 & H1 & H). injection H as <-. bstep H1 v Hv. exists v. split; auto. destruct ok.
    - bstep H1 L E1. apply rbind_ok in H1 as ([s2 v2] & F1 & H1). injection H1 as <-. unfold migrate_con in F1. apply rbind_ok in F1 as ([s3 v3] & F1 & F2).
      apply upd_con_eff in F1 as (V1 & S1 & M1 & R1 & R2). change (v_put v KFly (v_get v KFly + - amt)) with (v_set_fly v (v_fly v + - amt)) in V1. subst v3.
      apply upd_con_eff in F2 as (V2 & S2 & M2 & _). change (v_put (v_set_fly v (v_fly v + - amt)) KContr (v_get (v_set_fly v (v_fly v + - amt)) KContr + amt)) with
        (v_set_contr (v_set_fly v (v_fly v + - amt)) (v_contr v + amt)) in V2. subst v2.
      pose proof (burn_spec _ _ _ _ _ _ E1) as (_ & _ & B2 & _).
      change (v_get v KFly) with (v_fly v) in R1. change (entry (set_c_led s L) v KFly w) with (entry s v KFly w) in R2.
      split; [lia|]. split; [lia|]. split; [|split; [|split]].
      + subst s2 s3. cbn [put_vault c_vaults set_c_vaults set_c_reqs con_put set_c_con set_c_led set_c_str]. replace (v_fly v + - amt) with (v_fly v - amt) by lia. reflexivity.
      + intros k' w'. pose proof (entry_moved_trans _ _ _ _ _ _ _ _ _ _ _ M1 M2 (v_trie v) k' w') as M. unfold entry.
        change (c_con (set_c_led s L)) with (c_con s) in M. change (v_trie (v_set_fly v (v_fly v + - amt))) with (v_trie v) in M.
        change (c_con (set_c_reqs (put_vault s2 (para, a, b) (v_set_contr (v_set_fly v (v_fly v + - amt)) (v_contr v + amt))) (delete q (c_reqs (put_vault s2 (para, a, b) (v_set_contr (v_set_fly v (v_fly v + - amt)) (v_contr v + amt))))))) with (c_con s2).
        rewrite M. assert (Hb : forall k0, bool_decide (v_trie v = v_trie v /\ k' = k0 /\ w' = w) = bool_decide (k' = k0 /\ w' = w)) by (intros; apply bool_decide_ext; tauto).
        rewrite !Hb. reflexivity.
      + intros x y. subst s2 s3. change (bal L x y = bal (c_led s) x y - at_ R A x y amt). rewrite B2. reflexivity.
      + subst s2 s3. reflexivity.
    - bstep H1 L E1. apply rbind_ok in H1 as ([s2 v2] & F1 & H1). injection H1 as <-.
      apply upd_con_eff in F1 as (V1 & S1 & M1 & R1 & R2). change (v_put v KFly (v_get v KFly + - amt)) with (v_set_fly v (v_fly v + - amt)) in V1. subst v2.
      pose proof (transfer_spec _ _ _ _ _ _ _ _ E1) as (B2 & _ & _).
      change (v_get v KFly) with (v_fly v) in R1. change (entry (set_c_led s L) v KFly w) with (entry s v KFly w) in R2.
      split; [lia|]. split; [lia|]. split; [|split; [|split]].
      + subst s2. cbn [put_vault c_vaults set_c_vaults set_c_reqs con_put set_c_con set_c_led set_c_str]. replace (v_fly v + - amt) with (v_fly v - amt) by lia. reflexivity.
      + intros k' w'. unfold entry. specialize (M1 (v_trie v) k' w'). change (c_con (set_c_led s L)) with (c_con s) in M1.
        change (c_con (put_vault s2 (para, a, b) (v_set_fly v (v_fly v + - amt)))) with (c_con s2). rewrite M1. f_equal.
        assert (Hb : bool_decide (v_trie v = v_trie v /\ k' = KFly /\ w' = w) = bool_decide (k' = KFly /\ w' = w)) by (apply bool_decide_ext; tauto). rewrite Hb. reflexivity.
      + intros x y. subst s2. change (bal L x y = bal (c_led s) x y - at_ R A x y amt + at_ R w x y amt). rewrite B2. reflexivity.
      + subst s2. reflexivity.
  Qed.

  (** ** claim *)
  Lemma claim_exact s w para a b force s' : cr_inv C E ct s -> do_claim_for C E s w para a b force = Ok s' ->
    exists v, c_vaults s !! (para, a, b) = Some v /\ (force = true \/ v_phase v = Succeeded) /\ 0 < entry s v KContr w /\
      c_vaults s' = c_vaults s /\ entry_moved s s' (v_trie v) KContr w (- entry s v KContr w) /\ c_reqs s' = c_reqs s /\ c_leases s' = c_leases s /\
      let x := bonus_amount C s a b (entry s v KContr w) in
      let bo := default bonus_default (c_bonus s !! (a, b)) in
      (forall y z, bal (c_led s') y z = bal (c_led s) y z + at_ (v_ctoken v) w y z (entry s v KContr w)
                     - at_ (cc_native C) A y z x + at_ (cc_native C) (str_acct (cc_str C)) y z x) /\
      (x = 0 /\ streams (c_str s') = streams (c_str s) \/
       0 < x /\ streams (c_str s') !! next_id (c_str s) = Some (stream_new x (cc_native C) (x / (bo_end bo - bo_start bo)) A w (bo_start bo) (bo_end bo) false)).
  Proof.
    intros HI H. pose proof (ci_good _ _ _ _ HI) as [Hg Hr]. unfold do_claim_for in H. bstep H ctoken Hct. bstep H v Hv. bstep H u1 E1. bstep H u2 E2. bstep H L E3.
    destruct (key_eq _ _ _ _ _ _ _ Hv Hg) as [K1 K2]. destruct (cs_vault _ _ _ Hg _ _ Hv) as [G1 G2 G3 G4 G5 G6 G7 G8 G9]. cbn in G1, G2.
    assert (ctoken = v_ctoken v) by (rewrite K1, K2, Hct in G7; congruence). subst ctoken.
    change (con_get s (v_trie v) KContr w) with (entry s v KContr w) in *.
    pose proof (mint_spec _ _ _ _ _ _ E3) as (M1 & M2 & M3). exists v. split; auto.
    split. { apply orb_true_iff in E1 as [->|E1]; auto. apply bool_decide_eq_true in E1. auto. }
    split; [lia|].
    assert (Hem : entry_moved s (con_put (set_c_led s L) (v_trie v) KContr w 0) (v_trie v) KContr w (- entry s v KContr w)).
    { intros t' k' w'. rewrite con_put_con, cput_get. change (c_con (set_c_led s L)) with (c_con s). unfold entry. destruct (decide (t' = v_trie v /\ k' = KContr /\ w' = w)) as [Hd|Hd]; [rewrite !bool_decide_true by auto; destruct Hd as (-> & -> & ->); lia|rewrite !bool_decide_false by auto; lia]. }
    destruct (bonus_amount C s a b (entry s v KContr w) =? 0) eqn:Ex.
    - injection H as <-. split; [reflexivity|]. split; [exact Hem|]. split; [reflexivity|]. split; [reflexivity|]. cbn zeta. split; [|left; split; [lia|reflexivity]].
      intros y z. change (c_led (con_put (set_c_led s L) (v_trie v) KContr w 0)) with L. rewrite M2. unfold at_. repeat destruct (bool_decide _); lia.
    - bstep H st E4. injection H as <-. split; [reflexivity|]. split; [exact Hem|]. split; [reflexivity|]. split; [reflexivity|]. cbn zeta.
      pose proof (trait_create_led _ _ _ _ _ _ _ _ _ _ _ E4) as T. apply transfer_spec in T as (T1 & T2 & _). split.
      + intros y z. change (c_led (set_c_str (con_put (set_c_led s L) (v_trie v) KContr w 0) st)) with (s_led st). rewrite T1.
        change (s_led (c_str (con_put (set_c_led s L) (v_trie v) KContr w 0))) with L. rewrite M2. lia.
      + right. pose proof (bonus_range C s a b (entry s v KContr w)). split; [lia|]. change (c_str (set_c_str (con_put (set_c_led s L) (v_trie v) KContr w 0) st)) with st.
        change (c_str (con_put (set_c_led s L) (v_trie v) KContr w 0)) with (s_set_led (c_str s) L) in E4.
        assert (HI2 : str_inv (cc_str C) (s_set_led (c_str s) L)).
        { apply (reachable_str_inv (cc_str C) P ltac:(apply HC)). eapply reach_mint; eauto. }
        unfold trait_create in E4. bstep E4 u3 E5. apply rbind_ok in E4 as ([id s1] & E6 & E4). bstep E4 l1 E7. injection E4 as <-.
        assert (Hbs : 0 <= bo_start (default bonus_default (c_bonus s !! (a, b)))) by (destruct (c_bonus s !! (a, b)) as [bo|] eqn:Eb; cbn; [apply (cs_bonus _ _ _ Hg) in Eb; lia|lia]).
        destruct (do_create_inv (cc_str C) (ce_pol E) ltac:(apply HC) _ _ _ _ _ _ _ _ _ _ HI2 (HA C ct HC) (bonus_range C s a b (entry s v KContr w)) Hbs E6)
          as (_ & _ & -> & _ & R5 & _). exact R5.
  Qed.

  (** ** withdraw after a failed auction *)
  Lemma withdraw_exact s w para a b s' : withdraw_for C E s w para a b = Ok s' ->
    exists v, c_vaults s !! (para, a, b) = Some v /\ v_phase v = Failed /\ entry s v KContr w <> 0 /\ entry s v KContr w <= v_contr v /\
      c_vaults s' = <[(para, a, b) := v_set_contr v (v_contr v - entry s v KContr w)]> (c_vaults s) /\
      entry_moved s s' (v_trie v) KContr w (- entry s v KContr w) /\
      (forall y z, bal (c_led s') y z = bal (c_led s) y z + at_ R w y z (entry s v KContr w)).
  Proof.
    intros H. unfold withdraw_for in H. bstep H v Hv. bstep H u1 E1. bstep H u2 E2. bstep H c E3. bstep H L E4. injection H as <-.
    change (con_get s (v_trie v) KContr w) with (entry s v KContr w) in *. apply bool_decide_eq_true in E1. destruct E3 as [-> E3].
    pose proof (mint_spec _ _ _ _ _ _ E4) as (M1 & M2 & M3). exists v. split; [auto|]. split; [auto|]. split; [lia|]. split; [lia|]. split; [reflexivity|]. split.
    - intros t' k' w'. change (c_con (put_vault (set_c_led (con_put s (v_trie v) KContr w 0) L) (para, a, b) (v_set_contr v (v_contr v - entry s v KContr w)))) with (cput (c_con s) (v_trie v) KContr w 0).
      rewrite cput_get. unfold entry. destruct (decide (t' = v_trie v /\ k' = KContr /\ w' = w)) as [Hd|Hd]; [rewrite !bool_decide_true by auto; destruct Hd as (-> & -> & ->); lia|rewrite !bool_decide_false by auto; lia].
    - intros y z. change (bal L y z = bal (c_led s) y z + at_ R w y z (entry s v KContr w)). rewrite M2. reflexivity.
  Qed.

  (** ** redeem after the lease *)
  Lemma redeem_exact s w para a b amt s' : cst C ct s -> ledger_wf (c_led s) -> redeem C E s w para a b amt = Ok s' ->
    exists v, c_vaults s !! (para, a, b) = Some v /\ v_phase v = Expired /\ amt <= v_contr v /\ amt <= bal (c_led s) (v_ctoken v) w /\
      c_vaults s' = <[(para, a, b) := v_set_contr v (v_contr v - amt)]> (c_vaults s) /\ c_con s' = c_con s /\
      (forall y z, bal (c_led s') y z = bal (c_led s) y z - at_ (v_ctoken v) w y z amt + at_ R w y z amt).
  Proof.
    intros Hg Hwf H. unfold redeem in H. bstep H ctoken Hct. bstep H v Hv. bstep H u1 E1. bstep H u2 E2. bstep H c E3. bstep H L E4. bstep H L2 E5. injection H as <-.
    destruct (key_eq _ _ _ _ _ _ _ Hv Hg) as [K1 K2]. destruct (cs_vault _ _ _ Hg _ _ Hv) as [G1 G2 G3 G4 G5 G6 G7 G8 G9]. cbn in G1, G2.
    assert (ctoken = v_ctoken v) by (rewrite K1, K2, Hct in G7; congruence). subst ctoken. apply bool_decide_eq_true in E1. destruct E3 as [-> E3].
    pose proof (burn_spec _ _ _ _ _ _ E4) as (B1 & B0 & B2 & B3). pose proof (mint_spec _ _ _ _ _ _ E5) as (M1 & M2 & M3).
    exists v. split; [auto|]. split; [auto|]. split; [lia|]. split.
    { destruct (decide (amt = 0)) as [->|]; [apply (proj1 Hwf)|apply B0; lia]. }
    split; [reflexivity|]. split; [reflexivity|]. intros y z. change (bal L2 y z = bal (c_led s) y z - at_ (v_ctoken v) w y z amt + at_ R w y z amt). rewrite M2, B2. lia.
  Qed.

  (** ** refunds *)
  Lemma refund_one_exact s w v k amt s1 v1 : do_refund_for C E s w v k amt = Ok (s1, v1) -> kind_ok k -> w <> A ->
    v1 = v_put v k (v_get v k - amt) /\ entry_moved s s1 (v_trie v) k w (- amt) /\ amt <= entry s v k w /\ amt <= v_get v k /\
    c_con s1 = cput (c_con s) (v_trie v) k w (entry s v k w - amt) /\
    c_vaults s1 = c_vaults s /\ c_reqs s1 = c_reqs s /\
    (forall y z, z <> A -> bal (c_led s1) y z = bal (c_led s) y z + at_ R w y z amt).
  Proof.
    intros H Hk Hw. unfold do_refund_for in H. bstep H L E1.
    assert (Hb : forall y z, z <> A -> bal L y z = bal (c_led s) y z + at_ R w y z amt).
    { intros y z Hz. destruct (k =? KContr).
      - pose proof (mint_spec _ _ _ _ _ _ E1) as (_ & M2 & _). apply M2.
      - pose proof (transfer_spec _ _ _ _ _ _ _ _ E1) as (M2 & _). rewrite M2. unfold at_. rewrite (bool_decide_false (y = R /\ z = A)) by tauto. lia. }
    apply upd_con_eff in H as (-> & -> & M & X1 & X2). change (entry (set_c_led s L) v k w) with (entry s v k w) in *.
    replace (v_get v k + - amt) with (v_get v k - amt) by lia. replace (entry s v k w + - amt) with (entry s v k w - amt) by lia.
    split; [reflexivity|]. split. { intros t' k' w'. specialize (M t' k' w'). rewrite Z.sub_opp_r in M || idtac. change (c_con (set_c_led s L)) with (c_con s) in M.
      replace (entry s v k w + - amt) with (entry s v k w - amt) in M by lia. exact M. }
    split; [lia|]. split; [lia|]. split; [reflexivity|]. split; [reflexivity|]. split; [reflexivity|]. exact Hb.
  Qed.

  Lemma esum_cput con t k w x t' w' : kind_ok k ->
    let f c := default 0 (c !! (t', KPend, w')) + default 0 (c !! (t', KFly, w')) + default 0 (c !! (t', KContr, w')) in
    f (cput con t k w x) = f con + (if bool_decide (t' = t /\ w' = w) then x - default 0 (con !! (t, k, w)) else 0).
  Proof.
    intros Hk f. unfold f. rewrite !cput_get. destruct (decide (t' = t /\ w' = w)) as [[-> ->]|Hn].
    - rewrite (bool_decide_true (t = t /\ w = w)) by auto. destruct Hk as [->|[->| ->]];
      repeat match goal with |- context[bool_decide (t = t /\ ?a = ?b /\ w = w)] =>
        first [rewrite (bool_decide_true (t = t /\ a = b /\ w = w)) by (repeat split; reflexivity) | rewrite (bool_decide_false (t = t /\ a = b /\ w = w)) by (intros (_ & Hx & _); discriminate Hx)] end; lia.
    - rewrite (bool_decide_false (t' = t /\ w' = w)) by auto. rewrite !bool_decide_false by tauto. lia.
  Qed.

  Lemma refund_loop_exact t l : forall n s v s1 v1, refund_loop C E l n s v = Ok (s1, v1) -> v_trie v = t ->
    NoDup (map (fun e => (e.1, e.2.1)) l) ->
    (forall k w x, (k, (w, x)) ∈ l -> kind_ok k /\ w <> A /\ c_con s !! (t, k, w) = Some x) ->
    (forall w, w <> A -> bal (c_led s1) R w + esum s1 t w = bal (c_led s) R w + esum s t w) /\
    (forall a w, a <> R -> w <> A -> bal (c_led s1) a w = bal (c_led s) a w) /\
    (forall t' k w, c_con s1 !! (t', k, w) = c_con s !! (t', k, w) \/ (t' = t /\ c_con s1 !! (t', k, w) = None)) /\
    ((length l <= n)%nat -> forall k w x, (k, (w, x)) ∈ l -> c_con s1 !! (t, k, w) = None) /\
    c_vaults s1 = c_vaults s /\ c_reqs s1 = c_reqs s /\ v_trie v1 = t /\ v_phase v1 = v_phase v /\ v_ctoken v1 = v_ctoken v.
  Proof.
    induction l as [|[k [w amt]] l IH]; intros n s v s1 v1 H Ht Hnd Hl.
    - cbn in H. injection H as <- <-. repeat split; auto. intros _ k w x Hin. inversion Hin.
    - destruct n as [|n]; cbn [refund_loop] in H.
      { injection H as <- <-. repeat split; auto. intros Hlen. cbn in Hlen. lia. }
      apply rbind_ok in H as ([s0 v0] & F1 & H).
      destruct (Hl k w amt (elem_of_list_here _ _)) as (Hk & Hw & Hc).
      destruct (refund_one_exact _ _ _ _ _ _ _ F1 Hk Hw) as (V & M & X1 & X2 & Hcon & Hvs & Hrq & Hb).
      assert (He : entry s v k w = amt) by (unfold entry; rewrite Ht, Hc; reflexivity). rewrite He, Z.sub_diag in Hcon. rewrite Ht in Hcon.
      cbn in Hnd. apply NoDup_cons in Hnd as [Hn1 Hn2].
      destruct (v_put_id v k (v_get v k - amt)) as (P1 & P2 & P3 & P4 & P5 & P6). rewrite <- V in *.
      assert (Hkept : forall t' k' w', (t', k', w') <> (t, k, w) -> c_con s0 !! (t', k', w') = c_con s !! (t', k', w')).
      { intros t' k' w' Hne. rewrite Hcon. unfold cput. cbn [Z.eqb]. rewrite lookup_delete_ne; auto. }
      assert (Hgone : c_con s0 !! (t, k, w) = None) by (rewrite Hcon; apply lookup_delete).
      destruct (IH n s0 v0 s1 v1 H ltac:(congruence) Hn2) as (I1 & I2 & I3 & I4 & I5 & I6 & I7 & I8 & I9).
      { intros k' w' x' Hin. destruct (Hl k' w' x' (elem_of_list_further _ _ _ Hin)) as (L1 & L2 & L3). split; [auto|]. split; auto.
        rewrite Hkept; auto. intros [= -> ->]. apply Hn1. apply elem_of_list_fmap. exists (k, (w, x')). auto. }
      split; [|split; [|split; [|split; [|repeat split; congruence]]]].
      + intros w' Hw'. rewrite I1 by auto. rewrite Hb by auto. unfold esum. rewrite Hcon. rewrite (esum_cput (c_con s) t k w 0 t w' Hk). rewrite Hc. cbn [default]. unfold at_, id.
        destruct (decide (w' = w)) as [->|Hne].
        * rewrite !bool_decide_true by auto. lia.
        * rewrite !bool_decide_false by tauto. lia.
      + intros a0 w' Ha0 Hw'. rewrite I2 by auto. rewrite Hb by auto. unfold at_. rewrite bool_decide_false by tauto. lia.
      + intros t' k' w'. destruct (decide ((t', k', w') = (t, k, w))) as [[= -> -> ->]|Hne].
        * right. split; auto. destruct (I3 t k w) as [I|[_ I]]; auto. rewrite I. exact Hgone.
        * rewrite <- (Hkept _ _ _ Hne). apply I3.
      + intros Hlen k' w' x' Hin. apply elem_of_cons in Hin as [[= -> -> ->]|Hin].
        * destruct (I3 t k w) as [I|[_ I]]; auto. rewrite I. exact Hgone.
        * eapply I4; eauto. cbn in Hlen. lia.
  Qed.

  Lemma refund_todo_nodup s v : NoDup (map (fun e : Z * (Z * Z) => (e.1, e.2.1)) (refund_todo s v)).
  Proof.
    unfold refund_todo. rewrite !map_app, !map_map. cbn [fst snd].
    assert (Hi : forall k, NoDup (map (fun x : Z * Z => (k, x.1)) (contributions s (v_trie v) k))).
    { intros k. pose proof (contributions_nodup s (v_trie v) k) as Hn. rewrite <- (map_map fst (pair k)). apply (NoDup_fmap_2 (pair k)). exact Hn. }
    assert (Hd : forall k1 k2 x, k1 <> k2 -> x ∈ map (fun x : Z * Z => (k1, x.1)) (contributions s (v_trie v) k1) -> x ∉ map (fun x : Z * Z => (k2, x.1)) (contributions s (v_trie v) k2)).
    { intros k1 k2 x Hne H1 H2. apply elem_of_list_fmap in H1 as (y1 & -> & _), H2 as (y2 & Heq & _). injection Heq as Heq _. congruence. }
    apply NoDup_app. split; [apply Hi|]. split.
    - intros x Hx. rewrite elem_of_app. intros [H2|H2]; revert H2; eapply (Hd KContr); eauto; discriminate.
    - apply NoDup_app. split; [apply Hi|]. split; [|apply Hi]. intros x Hx. eapply (Hd KFly); eauto; discriminate.
  Qed.
  Lemma refund_exact s o para a b s' : cst C ct s -> refund C E s o para a b = Ok s' ->
    exists v v', c_vaults s !! (para, a, b) = Some v /\ (v_phase v = Closed \/ v_phase v = Failed) /\
      c_vaults s' = <[(para, a, b) := v']> (c_vaults s) /\ v_trie v' = v_trie v /\ v_phase v' = v_phase v /\
      (forall w, w <> A -> bal (c_led s') R w - bal (c_led s) R w = esum s (v_trie v) w - esum s' (v_trie v) w) /\
      (forall x w, x <> R -> w <> A -> bal (c_led s') x w = bal (c_led s) x w) /\
      (forall t k w, c_con s' !! (t, k, w) = c_con s !! (t, k, w) \/ (t = v_trie v /\ c_con s' !! (t, k, w) = None)) /\
      (Z.of_nat (length (refund_todo s v)) <= cc_remove C -> forall k w, c_con s' !! (v_trie v, k, w) = None) /\
      c_reqs s' = c_reqs s.
  Proof.
    intros Hg H. unfold refund in H. bstep H u0 E0. bstep H v Hv. bstep H u1 E1. apply rbind_ok in H as ([s1 v1] & F1 & H). injection H as <-.
    fold (refund_todo s v) in F1. apply bool_decide_eq_true in E1.
    destruct (refund_loop_exact (v_trie v) _ _ _ _ _ _ F1 eq_refl (refund_todo_nodup s v)) as (I1 & I2 & I3 & I4 & I5 & I6 & I7 & I8 & I9).
    { intros k w x Hin. apply refund_todo_elem in Hin as [Hk Hin]. split; auto. split; auto. apply (cs_con _ _ _ Hg) in Hin. tauto. }
    exists v, v1. split; [auto|]. split; [auto|]. split; [cbn; rewrite I5; reflexivity|]. split; [auto|]. split; [auto|].
    split. { intros w Hw. specialize (I1 w Hw). change (c_led (put_vault s1 (para, a, b) v1)) with (c_led s1). change (esum (put_vault s1 (para, a, b) v1) (v_trie v) w) with (esum s1 (v_trie v) w). lia. }
    split; [exact I2|]. split; [exact I3|]. split; [|exact I6].
    intros Hlen k w. change (c_con (put_vault s1 (para, a, b) v1)) with (c_con s1).
    destruct (I3 (v_trie v) k w) as [I|[_ I]]; auto. destruct (c_con s !! (v_trie v, k, w)) as [x|] eqn:Ex; [|auto].
    eapply I4; [lia|]. apply refund_todo_elem. split; [|exact Ex]. apply (cs_con _ _ _ Hg) in Ex. unfold kind_ok. tauto.
  Qed.
End exact.
