(** * ErcProofs4: ERC20 properties of histories. *)
From Verif Require Import Base MapSum Ledger AmmModel AmmSpec AmmProofs AmmInv AmmProofs5 ErcModel ErcSpec ErcProofs ErcProofs2 ErcProofs3.

Section hist.
  Context (C : erc_cfg) (P : policy) (HC : erc_cfg_ok C).
  Notation N := (ec_native C).
  Notation mp := (ec_map C).

  Lemma decode_sel bs sel n args : has_sel bs sel -> mapM id (words bs n) = Some args -> decode sel n bs = Some args.
  Proof. intros [L S] H. unfold decode. rewrite bool_decide_true by auto. rewrite S, Z.eqb_refl. exact H. Qed.
  Lemma decode_not bs sel n : ~ has_sel bs sel -> decode sel n bs = None.
  Proof.
    intros H. unfold decode. destruct (_ && _) eqn:E; [|auto]. exfalso. apply H. apply andb_prop in E as [E1 E2].
    apply bool_decide_eq_true in E1. split; [auto|lia].
  Qed.
  Lemma decode_other bs sel sel' n : has_sel bs sel -> sel <> sel' -> decode sel' n bs = None.
  Proof. intros H Hn. apply decode_not. intros H'. apply Hn. eapply has_sel_inj; eauto. Qed.

  (** one step of a history *)
  Lemma step_cases s o : erc_op_ok C o -> let s' := erc_exec C P s o in
    s' = s \/
    (exists now cx bs out logs, o = ECall now cx bs /\ ctx_ok cx /\ bytes_ok bs /\ ercs C P s cx now bs s' out logs) \/
    (exists w c, o = EDispatch w c /\ dispatch C P s w c = Ok s').
  Proof.
    intros Ho. cbv zeta. destruct o as [now cx bs|w c]; cbn [erc_exec].
    - destruct (evm_call C P now s cx bs) as [[[[s' out] logs]| |]|] eqn:E; auto. right. left. destruct Ho as (_ & Hx & Hb). eexists _, _, _, _, _; eauto.
    - destruct (dispatch C P s w c) as [s'| |] eqn:E; auto. right. right. eauto.
  Qed.

  Lemma sat_range x : 0 <= sat128 x <= U128MAX.
  Proof. unfold sat128. pose proof U128MAX_pos. lia. Qed.

  Lemma disp_mint s o a w v s' : dispatch C P s o (AMint a w v) = Ok s' ->
    a <> N /\ mint_into P (e_led s) a w v = Ok (e_led s') /\ s' = set_e_led s (e_led s') /\ (v = 0 \/ o = ec_issuer C a).
  Proof.
    unfold dispatch. intros H. bstep H u E. destruct HC as (H1 & H2 & _). pose proof (fun q => H2 _ _ _ a q E) as H3; specialize (H3 eq_refl).
    bstep H u2 E2. bstep H L EL. injection H as <-. split; [congruence|]. split; [auto|]. split; [auto|]. lia.
  Qed.
  Lemma disp_burn s o a w v s' : dispatch C P s o (ABurn a w v) = Ok s' ->
    a <> N /\ burn_from P (e_led s) a w (Z.min v (bal (e_led s) a w)) = Ok (e_led s') /\ s' = set_e_led s (e_led s') /\ (v = 0 \/ o = ec_admin C a).
  Proof.
    unfold dispatch. intros H. bstep H u E. destruct HC as (H1 & H2 & _). pose proof (fun q => H2 _ _ _ a q E) as H3; specialize (H3 eq_refl).
    bstep H u2 E2. bstep H L EL. injection H as <-. split; [congruence|]. split; [auto|]. split; [auto|]. lia.
  Qed.

  (** well-formed states stay well-formed *)
  Lemma set_allow_range s s' a o p v : (forall a o p, 0 <= allowance C s a o p <= U128MAX) -> set_allow C s s' a o p v -> 0 <= v <= U128MAX ->
    forall a o p, 0 <= allowance C s' a o p <= U128MAX.
  Proof. intros W S R b q r. rewrite S. case_bool_decide; auto. Qed.
  Lemma same_allow_range s s' : (forall a o p, 0 <= allowance C s a o p <= U128MAX) -> same_allowances C s s' ->
    forall a o p, 0 <= allowance C s' a o p <= U128MAX.
  Proof. intros W S b q r. rewrite S. auto. Qed.
  Lemma valued_wf cx s s1 : erc_wf C s -> valued C P cx s s1 -> erc_wf C s1.
  Proof.
    intros (W1 & W2 & W3) V. destruct (valued_same _ _ _ _ _ V) as [VA VN]. destruct V as (V0 & V & _).
    split; [eapply transfer_wf; [|exact W1|exact V]; lia|]. split; [intros; rewrite VA; auto|intros; rewrite VN; auto].
  Qed.
  Lemma step_wf s o : erc_wf C s -> erc_op_ok C o -> erc_wf C (erc_exec C P s o).
  Proof.
    intros W Ho. destruct (step_cases s o Ho) as [->|[(now & cx & bs & out & logs & -> & Hx & Hb & H)|(w & c & -> & H)]]; [auto| |].
    - destruct (token_of C (cx_code cx)) as [a|] eqn:ET.
      + assert (Ht : token C (cx_code cx) a) by (apply token_of_iff; [apply Hx|auto]).
        destruct (call_eff C P HC _ _ _ _ _ _ _ _ Hx Ht H) as (EA & s1 & V & E). pose proof (valued_wf _ _ _ W V) as (W1 & W2 & W3). revert E.
        generalize (erc_exec C P s (ECall now cx bs)). intros s' E.
        destruct E as [sel -> | wt v HS X0 X1 R TR SA SN | wf wt v HS X0 X1 X2 R TR SA SN | wp v HS X0 X1 EL SA SN | wo wp v dl wv r sg HS X0 X1 X2 X3 X4 X5 X6 T RC NZ EL SA SN
        | wt v Hn HS X0 X1 R TR PERM SA SN | wf v Hn HS X0 X1 R TR PERM SA SN | Ha Hnat HS Hval TR SA SN | v Ha ? HS X0 Hle -> ].
        * split; auto.
        * split; [eapply transfer_wf; [|exact W1|exact TR]; lia|]. split; [intros; rewrite SA; auto|intros; rewrite SN; auto].
        * split; [eapply transfer_wf; [|exact W1|exact TR]; lia|]. split; [|intros; rewrite SN; auto].
          destruct (_ =? _); [eapply same_allow_range; eauto|]. destruct SA as [S1 S2]. eapply set_allow_range; eauto.
          specialize (W2 a (mp (wf mod 2 ^ 160)) (mp (cx_caller cx))). lia.
        * split; [rewrite EL; auto|]. split; [eapply set_allow_range; eauto; apply sat_range|intros; rewrite SN; auto].
        * split; [rewrite EL; auto|]. split; [eapply set_allow_range; eauto; apply sat_range|]. intros t o. rewrite SN. case_bool_decide; [|auto].
          specialize (W3 (cx_code cx) (wo mod 2 ^ 160)). lia.
        * split; [eapply mint_wf; [exact W1|exact TR]|]. split; [intros; rewrite SA; auto|intros; rewrite SN; auto].
        * split; [eapply burn_wf; [exact W1|exact TR]|]. split; [intros; rewrite SA; auto|intros; rewrite SN; auto].
        * split; [eapply transfer_wf; [|exact W1|exact TR]; lia|]. split; [intros; rewrite SA; auto|intros; rewrite SN; auto].
        * split; auto.
      + assert (Hn : forall a, ~ token C (cx_code cx) a). { intros a Ht. apply token_of_iff in Ht; [congruence|apply Hx]. }
        destruct (call_pure C P _ _ _ _ _ _ _ Hx Hn H) as (_ & [->|V]); [auto|]. eapply valued_wf; eauto.
    - revert H. generalize (erc_exec C P s (EDispatch w c)). intros s' H. destruct W as (W1 & W2 & W3). cbn in Ho.
      destruct c as [to v|a to v|a ow to v|a p v|a p|a x v|a x v]; cbn in Ho.
      + apply disp_nt in H as [H E]. split; [eapply transfer_wf; [|exact W1|exact H]; lia|]. rewrite E. split; auto.
      + apply disp_at in H as [H E]. split; [eapply transfer_wf; [|exact W1|exact H]; lia|]. rewrite E. split; auto.
      + apply (disp_ata C P HC) in H as (_ & H & A1 & A2 & A3). split; [eapply transfer_wf; [|exact W1|exact H]; lia|].
        split; [eapply set_allow_range; eauto; specialize (W2 a ow w); lia|intros; rewrite A3; auto].
      + apply (disp_appr C P HC) in H as (_ & H & A1 & A2). split; [rewrite H; auto|]. split; [eapply set_allow_range; eauto; apply sat_range|intros; rewrite A2; auto].
      + apply (disp_cancel C P HC) in H as (_ & H & A1 & A2). split; [rewrite H; auto|]. pose proof U128MAX_pos. split; [eapply set_allow_range; eauto; lia|intros; rewrite A2; auto].
      + apply disp_mint in H as (_ & H & E & _). split; [eapply mint_wf; [exact W1|exact H]|]. rewrite E. split; auto.
      + apply disp_burn in H as (_ & H & E & _). split; [eapply burn_wf; [exact W1|exact H]|]. rewrite E. split; auto.
  Qed.
  Lemma run_wf h : forall s, erc_wf C s -> Forall (erc_op_ok C) h -> erc_wf C (erc_run C P s h).
  Proof. induction h as [|o h IH]; intros s W F; [exact W|]. inversion F; subst. apply IH; [apply step_wf; auto|auto]. Qed.

  (** allowances *)
  Lemma step_allow a ow sp s o : erc_wf C s -> erc_op_ok C o -> ow <> sp ->
    pulled C P a ow sp s o + allowance C (erc_exec C P s o) a ow sp <= allowance C s a ow sp + granted C P a ow sp s o.
  Proof.
    intros W Ho Hne. pose proof W as (_ & WA & _). pose proof (WA a ow sp) as A0. destruct o as [now cx bs|w c].
    - cbn [erc_exec pulled granted]. destruct (evm_call C P now s cx bs) as [[[[s' out] logs]| |]|] eqn:H; try lia.
      destruct Ho as (_ & Hx & Hb). destruct (token_of C (cx_code cx)) as [b|] eqn:ET.
      2:{ assert (Hn : forall a, ~ token C (cx_code cx) a). { intros b Ht. apply token_of_iff in Ht; [congruence|apply Hx]. }
          destruct (call_pure C P _ _ _ _ _ _ _ Hx Hn H) as (_ & [->|V]); [lia|].
          destruct (valued_same _ _ _ _ _ V) as [VA _]. rewrite VA. lia. }
      assert (Ht : token C (cx_code cx) b) by (apply token_of_iff; [apply Hx|auto]).
      destruct (call_eff C P HC _ _ _ _ _ _ _ _ Hx Ht H) as (EA & s1 & V & E). destruct (valued_same _ _ _ _ _ V) as [VA _].
      assert (D0 : forall sel, has_sel bs sel -> sel <> sel_transferFrom -> sel <> sel_approve -> sel <> sel_permit ->
        decode sel_transferFrom 3 bs = None /\ decode sel_approve 2 bs = None /\ decode sel_permit 7 bs = None).
      { intros sel S N1 N2 N3. split; [|split]; eapply decode_other; eauto. }
      destruct E as [sel -> ? HS NI | wt v HS X0 X1 R TR SA SN | wf wt v HS X0 X1 X2 R TR SA SN | wp v HS X0 X1 EL SA SN | wo wp v dl wv r sg HS X0 X1 X2 X3 X4 X5 X6 T RC NZ EL SA SN
        | wt v Hn HS X0 X1 R TR PERM SA SN | wf v Hn HS X0 X1 R TR PERM SA SN | Ha Hnat HS Hval TR SA SN | v Ha ? HS X0 Hle -> ].
      + destruct (D0 _ HS) as (-> & -> & ->); [..|rewrite VA; lia]; intros ->; apply NI; apply (bool_decide_unpack _); vm_compute; exact I.
      + destruct (D0 _ HS) as (-> & -> & ->); [discriminate..|]. rewrite SA, VA. lia.
      + rewrite (decode_other _ _ sel_approve 2 HS), (decode_other _ _ sel_permit 7 HS) by discriminate.
        rewrite (decode_sel _ _ 3 [wf; wt; v] HS) by (cbn; rewrite X0; cbn; rewrite X1; cbn; rewrite X2; reflexivity).
        destruct (mp (cx_caller cx) =? mp (wf mod 2 ^ 160)) eqn:EC.
        * rewrite SA, VA. rewrite bool_decide_false; [lia|]. intros (_ & <- & <-). lia.
        * destruct SA as [S1 S2]. rewrite S2, !VA. case_bool_decide as D1.
          -- destruct D1 as (? & ? & ?); subst. rewrite bool_decide_true by auto. lia.
          -- rewrite bool_decide_false; [lia|]. intros (? & ? & ?); subst; tauto.
      + rewrite (decode_other _ _ sel_transferFrom 3 HS), (decode_other _ _ sel_permit 7 HS) by discriminate.
        rewrite (decode_sel _ _ 2 [wp; v] HS) by (cbn; rewrite X0; cbn; rewrite X1; reflexivity).
        rewrite SA, VA. pose proof (word_range _ _ _ Hb X1) as [RV _]. unfold sat128. pose proof U128MAX_pos. case_bool_decide as D1.
        * destruct D1 as (? & ? & ?); subst. rewrite bool_decide_true by auto. lia.
        * rewrite bool_decide_false; [lia|]. intros (? & ? & ?); subst; tauto.
      + rewrite (decode_other _ _ sel_transferFrom 3 HS), (decode_other _ _ sel_approve 2 HS) by discriminate.
        rewrite (decode_sel _ _ 7 [wo; wp; v; dl; wv; r; sg] HS) by (cbn; rewrite X0; cbn; rewrite X1; cbn; rewrite X2; cbn; rewrite X3; cbn; rewrite X4; cbn; rewrite X5; cbn; rewrite X6; reflexivity).
        rewrite SA, VA. pose proof (word_range _ _ _ Hb X2) as [RV _]. unfold sat128. pose proof U128MAX_pos. case_bool_decide as D1.
        * destruct D1 as (? & ? & ?); subst. rewrite bool_decide_true by auto. lia.
        * rewrite bool_decide_false; [lia|]. intros (? & ? & ?); subst; tauto.
      + destruct (D0 _ HS) as (-> & -> & ->); [discriminate..|]. rewrite SA, VA. lia.
      + destruct (D0 _ HS) as (-> & -> & ->); [discriminate..|]. rewrite SA, VA. lia.
      + assert (decode sel_transferFrom 3 bs = None /\ decode sel_approve 2 bs = None /\ decode sel_permit 7 bs = None) as (-> & -> & ->).
        { destruct HS as [HS|HS]; [apply (D0 _ HS); discriminate|]. split; [|split]; apply decode_not; intros X; specialize (HS _ X); discriminate HS. }
        rewrite SA, VA. lia.
      + destruct (D0 _ HS) as (-> & -> & ->); [discriminate..|]. rewrite VA. lia.
    - cbn [erc_exec]. cbn in Ho. destruct c as [to v|b to v|b f to v|b p v|b p|b x v|b x v]; cbn [pulled granted]; cbn in Ho;
        match goal with |- context [dispatch ?A ?B ?D ?E ?F] => destruct (dispatch A B D E F) as [s'| |] eqn:H end; try lia.
      + apply disp_nt in H as [_ ->]. unfold allowance in *. cbn. lia.
      + apply disp_at in H as [_ ->]. unfold allowance in *. cbn. lia.
      + apply (disp_ata C P HC) in H as (_ & _ & A1 & A2 & _). rewrite A2. case_bool_decide as D1.
        * destruct D1 as (? & ? & ?); subst. rewrite bool_decide_true by auto. lia.
        * rewrite bool_decide_false; [lia|]. intros (? & ? & ?); subst; tauto.
      + apply (disp_appr C P HC) in H as (_ & _ & A1 & _). rewrite A1. pose proof (WA b w p) as A2. unfold sat128. case_bool_decide as D1.
        * destruct D1 as (? & ? & ?); subst. rewrite bool_decide_true by auto. lia.
        * rewrite bool_decide_false; [lia|]. intros (? & ? & ?); subst; tauto.
      + apply (disp_cancel C P HC) in H as (_ & _ & A1 & _). rewrite A1. case_bool_decide; lia.
      + apply disp_mint in H as (_ & _ & -> & _). unfold allowance in *. cbn. lia.
      + apply disp_burn in H as (_ & _ & -> & _). unfold allowance in *. cbn. lia.
  Qed.
  Lemma allow_conserved a ow sp h : ow <> sp -> forall s, erc_wf C s -> Forall (erc_op_ok C) h ->
    over C P (pulled C P a ow sp) s h + allowance C (erc_run C P s h) a ow sp
      <= allowance C s a ow sp + over C P (granted C P a ow sp) s h.
  Proof.
    intros Hne. induction h as [|o h IH]; intros s W F; [cbn; lia|]. inversion F; subst. cbn [over].
    specialize (IH _ (step_wf _ _ W H1) H2). pose proof (step_allow a ow sp s o W H1 Hne).
    change (erc_run C P s (o :: h)) with (erc_run C P (erc_exec C P s o) h). lia.
  Qed.

  (** nonces never fall *)
  Lemma step_nonce s o t x : erc_op_ok C o -> nonce s t x <= nonce (erc_exec C P s o) t x.
  Proof.
    intros Ho. destruct (step_cases s o Ho) as [->|[(now & cx & bs & out & logs & -> & Hx & Hb & H)|(w & c & -> & H)]]; [lia| |].
    - destruct (token_of C (cx_code cx)) as [a|] eqn:ET.
      + assert (Ht : token C (cx_code cx) a) by (apply token_of_iff; [apply Hx|auto]).
        destruct (call_eff C P HC _ _ _ _ _ _ _ _ Hx Ht H) as (EA & s1 & V & E). destruct (valued_same _ _ _ _ _ V) as [_ VN]. revert E.
        generalize (erc_exec C P s (ECall now cx bs)). intros s' E. rewrite <- VN.
        destruct E as [sel -> | wt v HS X0 X1 R TR SA SN | wf wt v HS X0 X1 X2 R TR SA SN | wp v HS X0 X1 EL SA SN | wo wp v dl wv r sg HS X0 X1 X2 X3 X4 X5 X6 T RC NZ EL SA SN
        | wt v Hn HS X0 X1 R TR PERM SA SN | wf v Hn HS X0 X1 R TR PERM SA SN | Ha Hnat HS Hval TR SA SN | v Ha ? HS X0 Hle -> ]; try (rewrite SN); try lia.
        case_bool_decide as D; [destruct D as [-> ->]|]; lia.
      + assert (Hn : forall a, ~ token C (cx_code cx) a). { intros a Ht. apply token_of_iff in Ht; [congruence|apply Hx]. }
        destruct (call_pure C P _ _ _ _ _ _ _ Hx Hn H) as (_ & [->|V]); [lia|]. destruct (valued_same _ _ _ _ _ V) as [_ VN]. rewrite VN. lia.
    - revert H. generalize (erc_exec C P s (EDispatch w c)). intros s' H.
      destruct c as [to v|a to v|a ow to v|a p v|a p|a y v|a y v].
      + apply disp_nt in H as [H ->]. unfold nonce. cbn. lia.
      + apply disp_at in H as [H ->]. unfold nonce. cbn. lia.
      + apply (disp_ata C P HC) in H as (_ & H & A1 & A2 & A3). rewrite A3. lia.
      + apply (disp_appr C P HC) in H as (_ & H & A1 & A2). rewrite A2. lia.
      + apply (disp_cancel C P HC) in H as (_ & H & A1 & A2). rewrite A2. lia.
      + apply disp_mint in H as (_ & H & -> & _). unfold nonce. cbn. lia.
      + apply disp_burn in H as (_ & H & -> & _). unfold nonce. cbn. lia.
  Qed.
  Lemma run_nonce h t x : forall s, Forall (erc_op_ok C) h -> nonce s t x <= nonce (erc_run C P s h) t x.
  Proof.
    induction h as [|o h IH]; intros s F; [cbn; lia|]. inversion F; subst. pose proof (step_nonce s o t x H1). specialize (IH (erc_exec C P s o) H2).
    change (erc_run C P s (o :: h)) with (erc_run C P (erc_exec C P s o) h). lia.
  Qed.

  (** a permit works once, for one token *)
  Lemma permit_once s cx now wo wp v dl wv r sg rest s' out logs a h cx2 now2 s2 out2 logs2 a2 rest2 :
    one_message C -> ctx_ok cx -> token C (cx_code cx) a -> Forall u256_ok [wo; wp; v; dl; wv; r; sg] ->
    ercs C P s cx now (calldata sel_permit [wo; wp; v; dl; wv; r; sg] ++ rest) s' out logs ->
    Forall (erc_op_ok C) h -> ctx_ok cx2 -> token C (cx_code cx2) a2 ->
    ~ ercs C P (erc_run C P s' h) cx2 now2 (calldata sel_permit [wo; wp; v; dl; wv; r; sg] ++ rest2) s2 out2 logs2.
  Proof.
    intros OM Hx Ht Hu H Hh Hx2 Ht2 H2.
    repeat match goal with X : Forall _ (_ :: _) |- _ => apply Forall_cons in X as [? X] end.
    assert (PE : forall w, u256_ok w -> is_addr w (w mod 2 ^ 160)) by (intros; split; auto).
    eapply (permit_exact C P HC) in H; [|eauto..]. destruct H as (_ & _ & R1 & _ & _ & _ & N1 & _).
    eapply (permit_exact C P HC) in H2; [|eauto..]. destruct H2 as (_ & _ & R2 & _).
    pose proof (OM _ _ _ _ R1 R2) as E. injection E as E1 E2 E3. rewrite <- E1 in E3.
    pose proof (run_nonce h (cx_code cx) (wo mod 2 ^ 160) s' Hh) as M. rewrite N1 in M. rewrite bool_decide_true in M by auto. lia.
  Qed.

  (** nothing leaves the native token's own account *)
  Lemma stuck_step s o : erc_wf C s -> erc_op_ok C o -> not_by_contract C o ->
    (forall sg m, ec_recover C sg m <> Some native_erc20) -> (forall p, allowance C s N (mp native_erc20) p = 0) ->
    bal (e_led s) N (mp native_erc20) <= bal (e_led (erc_exec C P s o)) N (mp native_erc20) /\
    (forall p, allowance C (erc_exec C P s o) N (mp native_erc20) p = 0).
  Proof.
    intros W Ho Hnb Hrec A0.
    destruct (step_cases s o Ho) as [->|[(now & cx & bs & out & logs & -> & Hx & Hb & H)|(w & c & -> & H)]]; [split; [lia|auto]| |].
    - pose proof HC as (HN & _ & INJ).
      assert (Hco : addr_ok native_erc20) by (vm_compute; split; [discriminate|reflexivity]).
      assert (CN : mp (cx_caller cx) <> mp native_erc20) by (intros E; apply Hnb; apply INJ; [apply Hx|auto|auto]).
      split.
      + revert H. generalize (erc_exec C P s (ECall now cx bs)). intros s' H.
        destruct (Z_lt_le_dec (bal (e_led s') N (mp native_erc20)) (bal (e_led s) N (mp native_erc20))) as [L|]; [exfalso|auto].
        destruct (balance_falls C P HC _ _ _ _ _ _ _ _ _ Hx Hb H L) as [E|[(wf & from & wt & v & I & [Hw ->] & E & Ht & Hal & Hle & _)|(wf & from & v & _ & _ & _ & _ & Hbn & _)]].
        * congruence.
        * rewrite A0 in Hal. assert (v <= 0) by lia. lia.
        * congruence.
      + revert H. generalize (erc_exec C P s (ECall now cx bs)). intros s' H p.
        destruct (token_of C (cx_code cx)) as [a|] eqn:ET.
        * assert (Ht : token C (cx_code cx) a) by (apply token_of_iff; [apply Hx|auto]).
          destruct (call_eff C P HC _ _ _ _ _ _ _ _ Hx Ht H) as (EA & s1 & V & E). destruct (valued_same _ _ _ _ _ V) as [VA _].
          destruct E as [sel -> | wt v HS X0 X1 R TR SA SN | wf wt v HS X0 X1 X2 R TR SA SN | wp v HS X0 X1 EL SA SN | wo wp v dl wv r sg HS X0 X1 X2 X3 X4 X5 X6 T RC NZ EL SA SN
            | wt v Hn HS X0 X1 R TR PERM SA SN | wf v Hn HS X0 X1 R TR PERM SA SN | Ha Hnat HS Hval TR SA SN | v Ha ? HS X0 Hle -> ];
            try (rewrite SA, VA; apply A0); try (rewrite VA; apply A0).
          -- destruct (_ =? _); [rewrite SA, VA; apply A0|]. destruct SA as [S1 S2]. rewrite S2, !VA. case_bool_decide as D; [|apply A0].
             destruct D as (D1 & D2 & D3). rewrite VA, <- D1, <- D2, <- D3, A0 in S1. rewrite <- D1, <- D2, <- D3, A0. lia.
          -- rewrite SA, VA. rewrite bool_decide_false; [apply A0|]. intros (_ & E & _). congruence.
          -- rewrite SA, VA. rewrite bool_decide_false; [apply A0|]. intros (_ & E & _). apply INJ in E; [|auto|].
             ++ rewrite <- E in RC. exact (Hrec _ _ RC).
             ++ apply Z.mod_pos_bound. reflexivity.
        * assert (Hn : forall a, ~ token C (cx_code cx) a). { intros a Ht. apply token_of_iff in Ht; [congruence|apply Hx]. }
          destruct (call_pure C P _ _ _ _ _ _ _ Hx Hn H) as (_ & [->|V]); [auto|]. destruct (valued_same _ _ _ _ _ V) as [VA _]. rewrite VA. auto.
    - revert H. generalize (erc_exec C P s (EDispatch w c)). intros s' H. cbn in Hnb. cbn in Ho.
      destruct c as [to v|a to v|a ow to v|a p v|a p|a y v|a y v]; cbn in Ho.
      + apply disp_nt in H as [H E]. split; [|rewrite E; auto]. destruct (transfer_spec _ _ _ _ _ _ _ _ H) as (B & _). rewrite B.
        unfold at_. repeat case_bool_decide; destruct_and?; try congruence; lia.
      + apply disp_at in H as [H E]. split; [|rewrite E; auto]. destruct (transfer_spec _ _ _ _ _ _ _ _ H) as (B & _). rewrite B.
        unfold at_. repeat case_bool_decide; destruct_and?; try congruence; lia.
      + apply (disp_ata C P HC) in H as (Hn & H & A1 & A2 & A3). destruct (transfer_spec _ _ _ _ _ _ _ _ H) as (B & _). rewrite B.
        split; [unfold at_; repeat case_bool_decide; destruct_and?; try congruence; lia|]. intros p. rewrite A2, bool_decide_false by (intros (? & _); congruence). auto.
      + apply (disp_appr C P HC) in H as (Hn & H & A1 & A2). rewrite H. split; [lia|]. intros q. rewrite A1, bool_decide_false by (intros (? & _); congruence). auto.
      + apply (disp_cancel C P HC) in H as (Hn & H & A1 & A2). rewrite H. split; [lia|]. intros q. rewrite A1, bool_decide_false by (intros (? & _); congruence). auto.
      + apply disp_mint in H as (Hn & H & E & _). destruct (mint_spec _ _ _ _ _ _ H) as (_ & B & _). rewrite B.
        split; [unfold at_; repeat case_bool_decide; destruct_and?; try congruence; lia|]. rewrite E. auto.
      + apply disp_burn in H as (Hn & H & E & _). destruct (burn_spec _ _ _ _ _ _ H) as (_ & _ & B & _). rewrite B.
        split; [unfold at_; repeat case_bool_decide; destruct_and?; try congruence; lia|]. rewrite E. auto.
  Qed.
  Lemma stuck_run h : (forall sg m, ec_recover C sg m <> Some native_erc20) ->
    forall s, erc_wf C s -> Forall (erc_op_ok C) h -> Forall (not_by_contract C) h -> (forall p, allowance C s N (mp native_erc20) p = 0) ->
    bal (e_led s) N (mp native_erc20) <= bal (e_led (erc_run C P s h)) N (mp native_erc20).
  Proof.
    intros R. induction h as [|o h IH]; intros s W F G A0; [cbn; lia|]. inversion F; subst. inversion G; subst.
    destruct (stuck_step s o W H1 H3 R A0) as [S1 S2]. specialize (IH _ (step_wf _ _ W H1) H2 H4 S2).
    change (erc_run C P s (o :: h)) with (erc_run C P (erc_exec C P s o) h). lia.
  Qed.
End hist.
